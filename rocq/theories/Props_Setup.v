(** * C78 and C79: starting a sandbox leaves no changes, neither pending ones nor on the host *)
From Verif Require Export Setup.
From Verif Require Import Props_Mounts ChangesFacts Checkers.

(** ** Statements *)
(** A sandbox without changes: the upper directories are empty. *)
Record fresh (f : fs) (ub : path) : Prop := {
  fr_wf : wf_tree f;
  fr_ub : is_dir_at f ub;
  fr_empty : ∀ p n, f !! p = Some n → under ub p = true → p = ub ∨ ∃ c, p = ub ++ [c];
}.
(** The mounts found are mount points of the host, which are directories, each listed once. *)
Record table_ok (f : fs) (hm : list path) (mounts : list mount_hash) : Prop := {
  tb_host : ∀ m, m ∈ hm → is_dir_at f m;
  tb_found : ∀ o, o ∈ mounts → ∃ m, m ∈ hm ∧ Forall comp_ok m ∧ o = MH (b32_encode (path_str m)) (path_str m);
  tb_once : NoDup mounts;
}.

Definition C78_full : Prop := ∀ e hm ub there cpus isdir uid gid f base mounts binds st inc,
  env_ok e → fresh f ub → table_ok f hm mounts →
  set_up hm ub there cpus isdir uid gid f (mount_overlays base mounts).2 binds = Ok st →
  changes e (su_fs st) ub inc = Ok [].
Definition C79_full : Prop := ∀ hm ub there cpus isdir uid gid f base mounts binds st p,
  fresh f ub → table_ok f hm mounts →
  set_up hm ub there cpus isdir uid gid f (mount_overlays base mounts).2 binds = Ok st →
  under ub p = false → su_fs st !! p = f !! p.

(** ** Refutations *)
Definition root_mount : mount_hash := MH (b32_encode "/") "/".
Definition rw (src tgt : path) : bind_mount := BindMount (PB true src) (PB true tgt) ReadWrite "".
Definition start_fs : fs := list_to_map
  [ ([], dir0); (["dev"], dir0); (["run"], dir0); (["home"], dir0); (["home"; "u"], dir0); (["opt"], dir0); (["x"], dir0);
    (["st"], dir0); (["st"; "a"], dir0); (["st"; "a"; "data"], dir0); (["st"; "a"; "upper"], dir0);
    (["st"; "a"; "upper"; "F4"], dir0) ].
Definition freshb (f : fs) (ub : path) : bool :=
  wf_treeb f && match f !! ub with Some n => is_kdir (n_kind n) | None => false end &&
  forallb (λ kv, negb (under ub kv.1) || Nat.leb (length kv.1) (S (length ub)))%bool (map_to_list f).
Lemma freshb_spec (f : fs) (ub : path) : freshb f ub = true → fresh f ub.
Proof.
  unfold freshb. rewrite !andb_true_iff. intros [[H1 H2] H3]. split.
  - by apply wf_treeb_spec.
  - destruct (f !! ub) as [n|] eqn:E; [|done]. exists n. split; [done|]. by destruct (n_kind n).
  - intros p n Hp Hu. rewrite forallb_forall in H3. specialize (H3 (p, n)). cbn [fst] in H3.
    rewrite Hu in H3. cbn [negb orb] in H3.
    assert (In (p, n) (map_to_list f)) as Hin by (by apply elem_of_list_In, elem_of_map_to_list).
    apply H3 in Hin. apply Nat.leb_le in Hin. apply under_spec in Hu as [s ->]. rewrite app_length in Hin.
    destruct s as [|c [|d s]]; [left; by rewrite app_nil_r|right; by exists c|cbn in Hin; lia].
Qed.
Lemma start_table (f : fs) (hm : list path) : [] ∈ hm → forallb (λ m, match f !! m with Some n => is_kdir (n_kind n) | None => false end) hm = true →
  table_ok f hm [root_mount].
Proof.
  intros Hr H. split.
  - intros m Hm. rewrite forallb_forall in H. apply elem_of_list_In, H in Hm. destruct (f !! m) as [n|] eqn:E; [|done].
    exists n. split; [done|]. by destruct (n_kind n).
  - intros o Ho. apply elem_of_list_singleton in Ho as ->. exists []. split; [done|]. split; [constructor|done].
  - apply NoDup_singleton.
Qed.

Lemma start_fresh : fresh start_fs ["st"; "a"; "upper"].
Proof. apply freshb_spec. vm_compute. reflexivity. Qed.
Lemma start_mounts : table_ok start_fs [[]] [root_mount].
Proof. apply start_table; [left|vm_compute; reflexivity]. Qed.

(** A bind mount whose target does not exist on the host: it is created, as a change of the sandbox. *)
Theorem C78_refuted : ¬ C78_full.
Proof.
  intros H.
  destruct (set_up [[]] ["st"; "a"; "upper"] (λ _, false) [] (λ _, true) 1000 1000 start_fs (mount_overlays "/st/a" [root_mount]).2
    [rw ["home"; "u"] ["opt"; "new"]; data_bind "/st/a"]) as [st|] eqn:E; [|vm_compute in E; discriminate E].
  specialize (H demo_env [[]] ["st"; "a"; "upper"] (λ _, false) [] (λ _, true) 1000%N 1000%N start_fs "/st/a" [root_mount]
    [rw ["home"; "u"] ["opt"; "new"]; data_bind "/st/a"] st true demo_env_ok).
  specialize (H start_fresh start_mounts E).
  assert (match set_up [[]] ["st"; "a"; "upper"] (λ _, false) [] (λ _, true) 1000 1000 start_fs (mount_overlays "/st/a" [root_mount]).2
    [rw ["home"; "u"] ["opt"; "new"]; data_bind "/st/a"] with
    | Ok st => match changes demo_env (su_fs st) ["st"; "a"; "upper"] true with Ok l => length l | Err _ => 0 end
    | Err _ => 0 end = 2) as K by (vm_compute; reflexivity).
  rewrite E in K. cbv beta iota in K. rewrite H in K. discriminate K.
Qed.
Print Assumptions C78_refuted.

(** Without any bind mount it is false for a storage directory on a tmpfs (a type that is accepted, C69,
    but not overlaid): the sandbox's own data directory is created as a change. *)
Definition C78_default_full : Prop := ∀ e hm ub there cpus isdir uid gid f base mounts st inc,
  env_ok e → fresh f ub → table_ok f hm mounts →
  set_up hm ub there cpus isdir uid gid f (mount_overlays base mounts).2 [data_bind base] = Ok st →
  changes e (su_fs st) ub inc = Ok [].
Definition tdir : node := Node KDir 493 0 0 2 ∅.
Definition tmpfs_fs : fs := list_to_map
  [ ([], dir0); (["dev"], dir0); (["run"], dir0); (["mem"], tdir); (["mem"; "st"], tdir); (["mem"; "st"; "a"], tdir);
    (["mem"; "st"; "a"; "data"], tdir); (["mem"; "st"; "a"; "upper"], tdir); (["mem"; "st"; "a"; "upper"; "F4"], tdir) ].
Lemma tmpfs_fresh : fresh tmpfs_fs ["mem"; "st"; "a"; "upper"].
Proof. apply freshb_spec. vm_compute. reflexivity. Qed.
Lemma tmpfs_mounts : table_ok tmpfs_fs [[]; ["mem"]] [root_mount].
Proof. apply start_table; [left|vm_compute; reflexivity]. Qed.
Theorem C78_default_refuted : ¬ C78_default_full.
Proof.
  intros H.
  destruct (set_up [[]; ["mem"]] ["mem"; "st"; "a"; "upper"] (λ _, false) [] (λ _, true) 1000 1000 tmpfs_fs (mount_overlays "/mem/st/a" [root_mount]).2
    [data_bind "/mem/st/a"]) as [st|] eqn:E; [|vm_compute in E; discriminate E].
  specialize (H demo_env [[]; ["mem"]] ["mem"; "st"; "a"; "upper"] (λ _, false) [] (λ _, true) 1000%N 1000%N tmpfs_fs "/mem/st/a" [root_mount] st true demo_env_ok).
  specialize (H tmpfs_fresh tmpfs_mounts E).
  assert (match set_up [[]; ["mem"]] ["mem"; "st"; "a"; "upper"] (λ _, false) [] (λ _, true) 1000 1000 tmpfs_fs (mount_overlays "/mem/st/a" [root_mount]).2
    [data_bind "/mem/st/a"] with
    | Ok st => match changes demo_env (su_fs st) ["mem"; "st"; "a"; "upper"] true with Ok l => c_dest <$> l | Err _ => [] end
    | Err _ => [] end ≡ₚ [["mem"]; ["mem"; "st"]; ["mem"; "st"; "a"]; ["mem"; "st"; "a"; "data"]]) as K.
  { refine (bool_decide_unpack _ _). vm_compute. exact I. }
  rewrite E in K. cbv beta iota in K. rewrite H in K. apply Permutation_nil in K. discriminate K.
Qed.
Print Assumptions C78_default_refuted.

(** A bind mount below another bind mount: the target is created on the host. *)
Theorem C79_refuted : ¬ C79_full.
Proof.
  intros H.
  destruct (set_up [[]] ["st"; "a"; "upper"] (λ _, false) [] (λ _, true) 1000 1000 start_fs (mount_overlays "/st/a" [root_mount]).2
    [rw ["home"; "u"] ["x"]; rw ["opt"] ["x"; "new"]; data_bind "/st/a"]) as [st|] eqn:E; [|vm_compute in E; discriminate E].
  specialize (H [[]] ["st"; "a"; "upper"] (λ _, false) [] (λ _, true) 1000%N 1000%N start_fs "/st/a" [root_mount]
    [rw ["home"; "u"] ["x"]; rw ["opt"] ["x"; "new"]; data_bind "/st/a"] st ["home"; "u"; "new"]).
  specialize (H start_fresh start_mounts E eq_refl).
  assert (match set_up [[]] ["st"; "a"; "upper"] (λ _, false) [] (λ _, true) 1000 1000 start_fs (mount_overlays "/st/a" [root_mount]).2
    [rw ["home"; "u"] ["x"]; rw ["opt"] ["x"; "new"]; data_bind "/st/a"] with
    | Ok st => bool_decide (su_fs st !! ["home"; "u"; "new"] = start_fs !! ["home"; "u"; "new"]) | Err _ => true end = false) as K by (vm_compute; reflexivity).
  rewrite E in K. cbv beta iota in K. apply bool_decide_eq_false in K. contradiction.
Qed.
Print Assumptions C79_refuted.

(** ** What holds *)
(** [p] exists on the host, and every file system on the way to it is overlaid ([dirs]). *)
Definition visible (hm dirs : list path) (f : fs) (p : path) : Prop :=
  is_Some (f !! p) ∧ ∀ m, m ∈ hm → under m p = true → m ≠ p → m ∈ dirs.
(** [p] is on one of the file systems the sandbox has of its own. *)
Definition private (own : list string) (dirs : list path) (p : path) : Prop :=
  (∃ x s, p = x :: s ∧ x ∈ own) ∧ ∀ d, d ∈ dirs → under d p = true → d = [] ∨ d = p.
Definition dirs_of (mounts : list mount_hash) : list path := [] :: ((λ o, comps (mh_dir o)) <$> mounts).
(** Every mount point and every bind target is visible or private, or below a directory that is masked;
    no target is below that of an earlier bind, except of a mask. *)
Record quiet (hm : list path) (f : fs) (mounts : list mount_hash) (binds : list bind_mount) : Prop := {
  q_mounts : ∀ o, o ∈ mounts → visible hm (dirs_of mounts) f (comps (mh_dir o)) ∨ private ["dev"; "run"] (dirs_of mounts) (comps (mh_dir o));
  q_binds : ∀ i b, binds !! i = Some b →
    visible hm (dirs_of mounts) f (place b) ∨ private ["dev"; "run"; "proc"; "sys"] (dirs_of mounts) (place b) ∨
    ∃ j b', j < i ∧ binds !! j = Some b' ∧ b_options b' = Mask ∧ under (place b') (place b) = true;
  q_nest : ∀ i j b b', i < j → binds !! i = Some b → binds !! j = Some b' → under (place b) (place b') = true → b_options b = Mask;
}.

Definition init_mounts : list mnt :=
  [Mounts.M [] (BOverlay (MH (b32_encode "/") "/")); Mounts.M ["dev"] (BPseudo "tmpfs"); Mounts.M ["run"] (BPseudo "tmpfs")].
Definition own_fs (x : backing) : Prop := match x with BOverlay _ | BHost _ _ => False | _ => True end.
Definition okq (hm : list path) (f : fs) (ms : list mnt) (q : path) : Prop :=
  match top_mount ms q with
  | None => False
  | Some m => m_at m = q ∨ own_fs (m_what m) ∨ ∃ o, m_what m = BOverlay o ∧ is_Some (lower_node hm f (m_at m) q)
  end.

Lemma top_some (ms : list mnt) (q : path) (m : mnt) : top_mount ms q = Some m →
  ∃ i, ms !! i = Some m ∧ m_at m `prefix_of` q ∧ ∀ j m', ms !! j = Some m' → m_at m' `prefix_of` q → j ≤ i.
Proof.
  unfold top_mount. revert m. induction ms as [|x ms IH] using rev_ind; intros m H; [done|].
  rewrite filter_app, filter_cons, filter_nil in H. destruct (decide (m_at x `prefix_of` q)) as [Hx|Hx].
  - rewrite last_snoc in H. injection H as <-. exists (length ms). split; [|split; [done|]].
    + rewrite lookup_app_r by lia. by rewrite Nat.sub_diag.
    + intros j m' Hj _. apply lookup_lt_Some in Hj. rewrite app_length in Hj. cbn in Hj. lia.
  - rewrite app_nil_r in H. destruct (IH m H) as (i & Hi & Hp & Hmax). exists i. split; [|split; [done|]].
    + rewrite lookup_app_l; [done|]. by eapply lookup_lt_Some.
    + intros j m' Hj Hp'. apply lookup_app_Some in Hj as [Hj|[_ Hj]]; [by eapply Hmax|].
      apply list_lookup_singleton_Some in Hj as [_ <-]. contradiction.
Qed.
Lemma top_is (ms : list mnt) (q : path) (m : mnt) : m ∈ ms → m_at m `prefix_of` q → is_Some (top_mount ms q).
Proof.
  intros Hm Hp. unfold top_mount. destruct (last _) eqn:E; [done|]. rewrite last_None in E.
  assert (m ∈ filter (λ m, m_at m `prefix_of` q) ms) as Hin by (by apply elem_of_list_filter).
  rewrite E in Hin. by apply elem_of_nil in Hin.
Qed.

Section pos.
  Context (hm : list path) (ub : path) (there : path → bool) (cpus : list string) (isdir : pbuf → bool) (uid gid : N).

  Lemma make_own (st st' : setup) (q : path) (n : node) (m : mnt) : top_mount (su_mounts st) q = Some m → own_fs (m_what m) →
    make ub st q n = Ok st' → su_fs st' = su_fs st ∧ su_mounts st' = su_mounts st.
  Proof.
    intros Ht Ho H. unfold make in H. rewrite Ht in H.
    destruct (m_what m) as [o|w|b|s r|p]; [done| | |done|]; repeat case_match; simplify_eq; done.
  Qed.
  Lemma okq_make (st st' : setup) (q : path) (n : node) : okq hm (su_fs st) (su_mounts st) q →
    (if found hm ub there st q then Ok st else make ub st q n) = Ok st' → su_fs st' = su_fs st ∧ su_mounts st' = su_mounts st.
  Proof.
    intros Hok H. destruct (found hm ub there st q) eqn:F; [by injection H as <-|].
    unfold okq in Hok. unfold found in F. destruct (top_mount (su_mounts st) q) as [m|] eqn:Ht; [|done].
    apply orb_false_iff in F as [F1 F2]. apply bool_decide_eq_false in F1.
    destruct Hok as [Hok|[Hok|(o & Ho & Hl)]]; [done|by eapply make_own|].
    rewrite Ho in F2. destruct (path_strip (m_at m) q) as [s|] eqn:Es.
    - apply orb_false_iff in F2 as [_ F2]. by apply bool_decide_eq_false in F2.
    - exfalso. apply top_some in Ht as (i & _ & [k Hk] & _). subst q. by rewrite path_strip_app in Es.
  Qed.
  Lemma make_dirs_quiet (todo base : path) (st st' : setup) :
    (∀ k, k `prefix_of` todo → okq hm (su_fs st) (su_mounts st) (base ++ k)) →
    make_dirs hm ub there st base todo = Ok st' → su_fs st' = su_fs st ∧ su_mounts st' = su_mounts st.
  Proof.
    revert base st. induction todo as [|c r IH]; intros base st Hok H; cbn [make_dirs] in H; [by injection H as <-|].
    destruct (if found hm ub there st (base ++ [c]) then Ok st else make ub st (base ++ [c]) root_dir) as [s1|] eqn:E1; [|done].
    cbn [rbind] in H. apply okq_make in E1 as [Ef Em]; [|apply Hok; by exists r].
    apply IH in H; [by rewrite <-Ef, <-Em|]. intros k [k' ->]. rewrite Ef, Em, <-app_assoc. apply Hok. by exists k'.
  Qed.
  Lemma make_target_quiet (st st' : setup) (p : path) (n : node) :
    (∀ q, q `prefix_of` p → okq hm (su_fs st) (su_mounts st) q) →
    make_target hm ub there st p n = Ok st' → su_fs st' = su_fs st ∧ su_mounts st' = su_mounts st.
  Proof.
    intros Hok H. unfold make_target in H.
    destruct (make_dirs hm ub there st [] (removelast p)) as [s1|] eqn:E1; [|done]. cbn [rbind] in H.
    apply make_dirs_quiet in E1 as [Ef Em].
    - apply okq_make in H as [Ef' Em']; [by rewrite Ef', Em'|]. rewrite Ef, Em. by apply Hok.
    - intros k Hk. cbn [app]. apply Hok. etrans; [exact Hk|]. destruct p as [|x p _] using rev_ind; [done|].
      rewrite removelast_snoc. by exists [x].
  Qed.
End pos.

Lemma dirs_overlay (mounts : list mount_hash) (m : mnt) : m ∈ overlay_mounts mounts →
  ∃ o, o ∈ mounts ∧ mh_dir o ≠ "/" ∧ m = Mounts.M (comps (mh_dir o)) (BOverlay o).
Proof.
  unfold overlay_mounts. intros (o & -> & Ho)%elem_of_list_fmap. apply elem_of_list_filter in Ho as [??]. by exists o.
Qed.
Definition table_ents (l : list mount_hash) : Prop :=
  ∀ o, o ∈ l → ∃ m, Forall comp_ok m ∧ mh_dir o = path_str m.
Lemma table_dir (l : list mount_hash) (o : mount_hash) : table_ents l → o ∈ l →
  mh_dir o = path_str (comps (mh_dir o)) ∧ Forall comp_ok (comps (mh_dir o)).
Proof. intros H Ho. destruct (H o Ho) as (m & Hm & ->). by rewrite comps_path_str. Qed.

Section states.
  Context (hm : list path) (f : fs).

  (** The mounts made, with what was mounted after the overlays of [l] being out of the way or the sandbox's own. *)
  Lemma okq_visible (l : list mount_hash) (P : list mnt) (q : path) :
    StronglySorted (cmp_le by_dir) l → table_ents l →
    (∀ m, m ∈ P → m_at m `prefix_of` q → own_fs (m_what m)) →
    (∀ m, m ∈ hm → under m q = true → m ≠ q → m = [] ∨ ∃ o, o ∈ l ∧ comps (mh_dir o) = m) →
    is_Some (f !! q) → okq hm f (init_mounts ++ overlay_mounts l ++ P) q.
  Proof.
    intros Hs Ht HP Hup Hq. unfold okq.
    destruct (top_is (init_mounts ++ overlay_mounts l ++ P) q (Mounts.M [] (BOverlay (MH (b32_encode "/") "/")))) as [m Hm].
    { apply elem_of_app. left. left. } { apply prefix_nil. }
    rewrite Hm. apply top_some in Hm as (i & Hi & Hp & Hmax).
    assert (∀ o, m_what m = BOverlay o → (∀ m', m' ∈ hm → m' ≠ m_at m → under (m_at m) m' = true → under m' q = true → m' ≠ q → False) →
      ∃ o, m_what m = BOverlay o ∧ is_Some (lower_node hm f (m_at m) q)) as Hlow.
    { intros o Ho Hno. exists o. split; [done|]. unfold lower_node.
      destruct (existsb _ hm) eqn:E; [|done]. exfalso. apply existsb_exists in E as (m' & Hin & E).
      rewrite !andb_true_iff, !negb_true_iff, !bool_decide_eq_false in E. destruct E as [[[E1 E2] E3] E4].
      apply (Hno m'); try done. by apply elem_of_list_In. }
    assert (∀ m', m' ∈ hm → m' ≠ m_at m → under (m_at m) m' = true → under m' q = true → m' ≠ q →
      ∃ k o', filter (λ o, mh_dir o ≠ "/") l !! k = Some o' ∧ comps (mh_dir o') = m' ∧ 3 + k ≤ i) as Hbetween.
    { intros m' Hin Hne Hu1 Hu2 Hne'. destruct (Hup m' Hin Hu2 Hne') as [-> |(o' & Ho' & Ho'd)].
      - exfalso. apply Hne. apply under_spec in Hu1 as [s Hs1]. symmetry in Hs1. by apply app_nil in Hs1 as [-> _].
      - assert (o' ∈ filter (λ o, mh_dir o ≠ "/") l) as Hf.
        { apply elem_of_list_filter. split; [|done]. intros Hsl. rewrite Hsl in Ho'd. change (comps "/") with (@nil string) in Ho'd.
          subst m'. apply Hne. apply under_spec in Hu1 as [s Hs1]. symmetry in Hs1. by apply app_nil in Hs1 as [-> _]. }
        apply elem_of_list_lookup in Hf as [k Hk]. exists k, o'. split; [done|]. split; [done|].
        apply (Hmax (3 + k) (Mounts.M m' (BOverlay o'))).
        + change (3 + k) with (length init_mounts + k). rewrite lookup_app_r by lia.
          replace (length init_mounts + k - length init_mounts) with k by lia.
          rewrite lookup_app_l.
          * unfold overlay_mounts. rewrite list_lookup_fmap, Hk. cbn. by rewrite Ho'd.
          * unfold overlay_mounts. rewrite fmap_length. by eapply lookup_lt_Some.
        + cbn [m_at]. by apply under_spec in Hu2. }
    apply lookup_app_Some in Hi as [Hi|[Hge Hi]].
    - destruct i as [|[|[|i]]]; cbn in Hi; [|injection Hi as <-; right; left; exact I..|done]. 
      right. right. injection Hi as <-. apply (Hlow _ eq_refl). intros m' H1 H2 H3 H4 H5.
      destruct (Hbetween m' H1 H2 H3 H4 H5) as (k & _ & _ & _ & Hk). lia.
    - apply lookup_app_Some in Hi as [Hi|[Hge' Hi]].
      + right. right. unfold overlay_mounts in Hi. rewrite list_lookup_fmap in Hi.
        destruct (filter (λ o, mh_dir o ≠ "/") l !! (i - length init_mounts)) as [o|] eqn:Eo; [|done]. cbn in Hi. injection Hi as <-.
        cbn [m_at m_what] in *. apply (Hlow o eq_refl). intros m' H1 H2 H3 H4 H5.
        destruct (Hbetween m' H1 H2 H3 H4 H5) as (k & o' & Hk & Hd & Hle).
        assert (o ∈ l) as Hol. { apply elem_of_list_lookup_2 in Eo. by apply elem_of_list_filter in Eo as [_ ?]. }
        assert (o' ∈ l) as Hol'. { apply elem_of_list_lookup_2 in Hk. by apply elem_of_list_filter in Hk as [_ ?]. }
        destruct (table_dir l o Ht Hol) as [Hd1 Hc1]. destruct (table_dir l o' Ht Hol') as [Hd2 Hc2].
        assert (i - length init_mounts < k) as Hlt; [|change (length init_mounts) with 3 in Hlt; lia].
        eapply (by_dir_order (filter (λ o, mh_dir o ≠ "/") l)); [by apply filter_sorted|exact Hc2|exact Eo|exact Hk|exact Hd1|exact Hd2|].
        rewrite Hd. apply under_spec in H3 as [s H3]. exists s. split; [|done]. intros ->. rewrite app_nil_r in H3. done.
      + right. left. apply HP; [|done]. by eapply elem_of_list_lookup_2.
  Qed.
  Lemma okq_nil (l : list mount_hash) (P : list mnt) : okq hm f (init_mounts ++ overlay_mounts l ++ P) [].
  Proof.
    unfold okq. destruct (top_is (init_mounts ++ overlay_mounts l ++ P) [] (Mounts.M [] (BOverlay (MH (b32_encode "/") "/")))) as [m Hm].
    { apply elem_of_app. left. left. } { apply prefix_nil. }
    rewrite Hm. apply top_some in Hm as (i & Hi & Hp & Hmax). left. by apply prefix_nil_inv in Hp.
  Qed.
  Lemma okq_private (l : list mount_hash) (P : list mnt) (q : path) :
    table_ents l →
    (∀ m, m ∈ P → m_at m `prefix_of` q → own_fs (m_what m)) →
    (∃ m j, (init_mounts ++ overlay_mounts l ++ P) !! S j = Some m ∧ m_at m `prefix_of` q) →
    (∀ o, o ∈ l → comps (mh_dir o) `prefix_of` q → comps (mh_dir o) = [] ∨ comps (mh_dir o) = q) →
    okq hm f (init_mounts ++ overlay_mounts l ++ P) q.
  Proof.
    intros Ht HP (mm & j & Hmm & Hmp) Hno. unfold okq.
    destruct (top_is (init_mounts ++ overlay_mounts l ++ P) q (Mounts.M [] (BOverlay (MH (b32_encode "/") "/")))) as [m Hm].
    { apply elem_of_app. left. left. } { apply prefix_nil. }
    rewrite Hm. apply top_some in Hm as (i & Hi & Hp & Hmax). specialize (Hmax _ _ Hmm Hmp).
    apply lookup_app_Some in Hi as [Hi|[Hge Hi]].
    - destruct i as [|[|[|i]]]; cbn in Hi; [lia|injection Hi as <-; right; left; exact I..|done].
    - apply elem_of_list_lookup_2, elem_of_app in Hi as [Hi|Hi]; [|right; left; by apply HP].
      apply dirs_overlay in Hi as (o & Ho & Hne & ->). cbn [m_at] in *.
      destruct (Hno o Ho Hp) as [Hn|Hn]; [|by left]. exfalso. apply Hne.
      destruct (table_dir l o Ht Ho) as [-> _]. rewrite Hn. done.
  Qed.
End states.

Lemma private_some (own : list string) (dirs : list path) (p q : path) : private own dirs p → q `prefix_of` p → q ≠ [] →
  (∃ x, x ∈ own ∧ [x] `prefix_of` q) ∧ ∀ d, d ∈ dirs → d `prefix_of` q → d = [] ∨ d = q.
Proof.
  intros [(x & s & -> & Hx) Hd] [k Hk] Hq. destruct q as [|y q]; [done|]. injection Hk as <- Hk. split.
  - exists x. split; [done|]. by exists q.
  - intros d Hin Hp. destruct (Hd d Hin) as [->|E]; [|by left|].
    + apply under_spec. destruct Hp as [k' Hp]. exists (k' ++ k). rewrite app_assoc, <-Hp. cbn. by rewrite Hk.
    + right. subst d. destruct Hp as [k' Hp]. rewrite Hk in Hp. injection Hp as Hp.
      assert (k = [] ∧ k' = []) as [-> ->]; [|by rewrite Hk, app_nil_r].
      assert (length q = length ((q ++ k) ++ k')) as Hl by congruence. rewrite !app_length in Hl.
      destruct k; [|cbn in Hl; lia]. destruct k'; [done|cbn in Hl; lia].
Qed.

Section main.
  Context (hm : list path) (ub : path) (there : path → bool) (cpus : list string) (isdir : pbuf → bool) (uid gid : N).
  Context (f : fs) (mounts : list mount_hash) (binds : list bind_mount).
  Context (Hwf : wf_tree f) (Htab : table_ok f hm mounts) (Hquiet : quiet hm f mounts binds).
  #[local] Notation sorted := (sort_by by_dir mounts).

  Lemma sorted_ents : table_ents sorted.
  Proof using Htab.
    intros o Ho. apply elem_of_sort_by in Ho. destruct (tb_found _ _ _ Htab o Ho) as (m & _ & Hc & ->). by exists m.
  Qed.
  Lemma dirs_sorted (m : path) : m ∈ dirs_of mounts → m = [] ∨ ∃ o, o ∈ sorted ∧ comps (mh_dir o) = m.
  Proof.
    intros H. apply elem_of_cons in H as [H|H]; [by left|right]. apply elem_of_list_fmap in H as (o & -> & Ho).
    exists o. split; [by apply elem_of_sort_by|done].
  Qed.
  Lemma overlays_quiet (todo done : list mount_hash) (st st' : setup) : sorted = done ++ todo →
    su_fs st = f → su_mounts st = init_mounts ++ overlay_mounts done →
    bind_overlays hm ub there st todo = Ok st' → su_fs st' = f ∧ su_mounts st' = init_mounts ++ overlay_mounts sorted.
  Proof using Hwf Htab Hquiet.
    revert done st. induction todo as [|o todo IH]; intros dn st Hl Hf Hms H; cbn [bind_overlays] in H.
    { injection H as <-. rewrite app_nil_r in Hl. by rewrite Hl. }
    destruct (String.eqb_spec (mh_dir o) "/") as [Hr|Hr].
    { apply (IH (dn ++ [o]) st); [by rewrite <-app_assoc|done| |done]. rewrite Hms. unfold overlay_mounts.
      rewrite filter_app, filter_cons, decide_False, filter_nil, app_nil_r; [done|]. intros Hn. by apply Hn. }
    destruct (make_target hm ub there st (comps (mh_dir o)) root_dir) as [s1|] eqn:E1; [|done]. cbn [rbind] in H.
    assert (o ∈ sorted) as Hos. { rewrite Hl. apply elem_of_app. right. left. }
    assert (table_ents dn) as Hdn. { intros x Hx. apply sorted_ents. rewrite Hl. apply elem_of_app. by left. }
    assert (StronglySorted (cmp_le by_dir) sorted) as Hss by (apply sort_by_sorted, by_dir_preorder).
    apply make_target_quiet in E1 as [Ef Em].
    - apply (IH (dn ++ [o])) in H; [done|by rewrite <-app_assoc| |].
      + cbn. congruence.
      + cbn [mounted su_mounts]. rewrite Em, Hms. unfold overlay_mounts.
        rewrite filter_app, filter_cons, decide_True, filter_nil, fmap_app, <-app_assoc by done. done.
    - intros q Hq. rewrite Hf, Hms. rewrite <-(app_nil_r (overlay_mounts dn)).
      destruct (decide (q = [])) as [->|Hqn]; [apply okq_nil|].
      destruct (q_mounts _ _ _ _ Hquiet o) as [[[n Hn] Hv]|Hp]; [by apply elem_of_sort_by in Hos| |].
      + apply okq_visible; [|done| | |].
        * rewrite Hl in Hss. by apply StronglySorted_app_inv_l in Hss.
        * intros m Hm. by apply elem_of_nil in Hm.
        * intros m Hm Hu Hne. destruct Hq as [k Hq].
          assert (above m (comps (mh_dir o))) as Hab.
          { apply under_spec in Hu as [s Hs]. exists (s ++ k). rewrite app_assoc, <-Hs, <-Hq. split; [|done].
            intros Hn0. apply app_nil in Hn0 as [-> ->]. rewrite app_nil_r in Hs. by apply Hne. }
          destruct (dirs_sorted m) as [-> |(o' & Ho' & Hd)].
          { apply Hv; [done| |].
            - apply under_spec. destruct Hab as (t & _ & Ht). by exists t.
            - intros He. destruct Hab as (t & Ht & Ht2). rewrite He in Ht2 at 1.
              apply Ht. apply (f_equal length) in Ht2. rewrite app_length in Ht2. destruct t; [done|cbn in Ht2; lia]. }
          { by left. }
          right. exists o'. split; [|done].
          apply elem_of_list_lookup in Ho' as [j Hj].
          assert (sorted !! length dn = Some o) as Hi.
          { rewrite Hl, lookup_app_r by lia. by rewrite Nat.sub_diag. }
          destruct (table_dir _ o sorted_ents Hos) as [Hd1 Hc1].
          destruct (table_dir _ o' sorted_ents) as [Hd2 Hc2]; [by eapply elem_of_list_lookup_2|].
          rewrite Hd in Hd2.
          pose proof (by_dir_order sorted j (length dn) o' o m (comps (mh_dir o)) Hss Hc1 Hj Hi Hd2 Hd1 Hab) as Hlt.
          rewrite Hl, lookup_app_l in Hj by lia. by eapply elem_of_list_lookup_2.
        * destruct Hq as [k Hq]. rewrite Hq in Hn. destruct k as [|c k]; [rewrite app_nil_r in Hn; by eexists|].
          destruct (wf_prefix f q (c :: k) n Hwf Hn) as (d & Hd & _); [done|]. by eexists.
      + destruct (private_some _ _ _ q Hp Hq Hqn) as [(x & Hx & Hxq) Hd].
        apply okq_private; [done| | |].
        * intros m Hm. by apply elem_of_nil in Hm.
        * assert (x = "dev" ∨ x = "run") as [-> | ->] by set_solver.
          -- by exists (Mounts.M ["dev"] (BPseudo "tmpfs")), 0.
          -- by exists (Mounts.M ["run"] (BPseudo "tmpfs")), 1.
        * intros o' Ho' Hp'. apply Hd; [|done]. right. apply elem_of_list_fmap. exists o'. split; [done|].
          apply (elem_of_sort_by by_dir). rewrite Hl. apply elem_of_app. by left.
  Qed.

  Lemma system_own (m : mnt) : m ∈ system_mounts there cpus → own_fs (m_what m).
  Proof.
    unfold system_mounts. rewrite !elem_of_app. intros [H|[H|H]].
    - rewrite !elem_of_cons in H. destruct H as [-> |[-> |[-> |[-> |[-> |[-> |H]]]]]]; [done..|by apply elem_of_nil in H].
    - by apply elem_of_list_fmap in H as (p & -> & _).
    - by apply elem_of_list_fmap in H as (p & -> & _).
  Qed.
  Lemma bind_okq (i n : nat) (b : bind_mount) (q : path) : binds !! i = Some b → i ≤ n → q `prefix_of` place b →
    (∀ b', b' ∈ take n binds → place b' `prefix_of` q → b_options b' = Mask) →
    okq hm f (init_mounts ++ overlay_mounts sorted ++ system_mounts there cpus ++ (realise isdir <$> take n binds)) q.
  Proof using Hwf Htab Hquiet.
    revert b. induction (lt_wf i) as [i _ IH]. intros b Hb Hin Hq Hmask.
    assert (∀ m, m ∈ system_mounts there cpus ++ (realise isdir <$> take n binds) → m_at m `prefix_of` q → own_fs (m_what m)) as HP.
    { intros m Hm Hp. apply elem_of_app in Hm as [Hm|Hm]; [by apply system_own|].
      apply elem_of_list_fmap in Hm as (b' & -> & Hb'). specialize (Hmask b' Hb' Hp). cbn [realise m_what]. by rewrite Hmask. }
    destruct (decide (q = [])) as [->|Hqn]; [apply okq_nil|].
    destruct (q_binds _ _ _ _ Hquiet i b Hb) as [[[nn Hn] Hv]|[Hp|(j & k & Hji & Hj & Hk & Hu)]].
    - apply okq_visible; [apply sort_by_sorted, by_dir_preorder|apply sorted_ents|done| |].
      + intros m Hm Hu Hne. apply dirs_sorted. apply Hv; [done| |].
        * apply under_spec in Hu as [s ->]. destruct Hq as [k ->]. apply under_spec. exists (s ++ k). by rewrite app_assoc.
        * intros ->. apply Hne. apply under_spec in Hu as [s ->]. destruct Hq as [k Hq].
          apply (f_equal length) in Hq. rewrite !app_length in Hq. destruct s; [by rewrite app_nil_r|cbn in Hq; lia].
      + destruct Hq as [k Hq]. rewrite Hq in Hn. destruct k as [|c k]; [rewrite app_nil_r in Hn; by eexists|].
        destruct (wf_prefix f q (c :: k) nn Hwf Hn) as (d & Hd & _); [done|]. by eexists.
    - destruct (private_some _ _ _ q Hp Hq Hqn) as [(x & Hx & Hxq) Hd].
      apply okq_private; [apply sorted_ents|done| |].
      + assert (x = "dev" ∨ x = "run" ∨ x = "proc" ∨ x = "sys") as [-> |[-> |[-> | ->]]] by set_solver.
        * by exists (Mounts.M ["dev"] (BPseudo "tmpfs")), 0.
        * by exists (Mounts.M ["run"] (BPseudo "tmpfs")), 1.
        * exists (Mounts.M ["proc"] (BPseudo "proc")), (2 + length (overlay_mounts sorted)). split; [|done].
          rewrite lookup_app_r by (cbn; lia). rewrite lookup_app_r by (cbn; lia). cbn [length init_mounts].
          by replace (S (2 + length (overlay_mounts sorted)) - 3 - length (overlay_mounts sorted)) with 0 by lia.
        * exists (Mounts.M ["sys"] (BPseudo "sysfs")), (6 + length (overlay_mounts sorted)). split; [|done].
          rewrite lookup_app_r by (cbn; lia). rewrite lookup_app_r by (cbn; lia). cbn [length init_mounts].
          by replace (S (6 + length (overlay_mounts sorted)) - 3 - length (overlay_mounts sorted)) with 4 by lia.
      + intros o' Ho' Hp'. apply Hd; [|done]. right. apply elem_of_list_fmap. exists o'. split; [done|].
        by apply (elem_of_sort_by by_dir).
    - destruct (decide (place k `prefix_of` q)) as [Hkq|Hkq].
      + unfold okq. assert (realise isdir k ∈ realise isdir <$> take n binds) as Hin'.
        { apply elem_of_list_fmap. exists k. split; [done|]. apply elem_of_list_lookup. exists j. rewrite lookup_take by lia. done. }
        destruct (top_is (init_mounts ++ overlay_mounts sorted ++ system_mounts there cpus ++ (realise isdir <$> take n binds)) q (realise isdir k)) as [m Hm]; [|done|].
        { rewrite !elem_of_app. auto. }
        rewrite Hm. right. left. apply top_some in Hm as (t & Ht & Hp & Hmax).
        apply HP; [|done]. apply elem_of_list_lookup in Hin' as [r Hr].
        specialize (Hmax (length init_mounts + (length (overlay_mounts sorted) + (length (system_mounts there cpus) + r))) (realise isdir k)).
        rewrite !lookup_app_r in Hmax by lia.
        replace (length init_mounts + (length (overlay_mounts sorted) + (length (system_mounts there cpus) + r)) - length init_mounts - length (overlay_mounts sorted) - length (system_mounts there cpus)) with r in Hmax by lia.
        specialize (Hmax Hr Hkq).
        rewrite !lookup_app_r in Ht by lia. apply elem_of_app. right. by eapply elem_of_list_lookup_2.
      + apply (IH j Hji k Hj); [lia| |done]. apply under_spec in Hu as [s Hs]. destruct Hq as [t Ht].
        rewrite Hs in Ht. destruct (prefix_weak_total (place k) q (place b)) as [?|?]; [rewrite Hs; by exists s|rewrite Hs; by exists t|contradiction|done].
  Qed.
  Lemma binds_quiet (n : nat) (st st' : setup) : su_fs st = f →
    su_mounts st = init_mounts ++ overlay_mounts sorted ++ system_mounts there cpus ++ (realise isdir <$> take n binds) →
    bind_binds hm ub there isdir uid gid f st (drop n binds) = Ok st' →
    su_fs st' = f ∧ su_mounts st' = init_mounts ++ overlay_mounts sorted ++ system_mounts there cpus ++ (realise isdir <$> binds).
  Proof using Hwf Htab Hquiet.
    remember (drop n binds) as todo eqn:Et. revert n st Et. induction todo as [|b todo IH]; intros n st Et Hf Hms H; cbn [bind_binds] in H.
    { injection H as <-. split; [done|]. rewrite Hms. do 3 f_equal. rewrite <-(take_drop n binds) at 2. rewrite <-Et. by rewrite app_nil_r. }
    destruct (make_target hm ub there st (m_at (realise isdir b)) (target_node isdir uid gid f b)) as [s1|] eqn:E1; [|done]. cbn [rbind] in H.
    assert (binds !! n = Some b) as Hb. { rewrite <-(Nat.add_0_r n), <-lookup_drop, <-Et. done. }
    apply make_target_quiet in E1 as [Ef Em].
    - apply (IH (S n)) in H; [done| | |].
      + rewrite <-(Nat.add_1_r n), <-drop_drop, <-Et. done.
      + cbn. congruence.
      + cbn [mounted su_mounts]. rewrite Em, Hms. erewrite take_S_r by exact Hb. rewrite fmap_app, <-!app_assoc. done.
    - intros q Hq. rewrite Hf, Hms. apply (bind_okq n n b q Hb); [done|exact Hq|].
      intros b' Hb' Hp. apply elem_of_list_lookup in Hb' as [j Hj]. apply lookup_take_Some in Hj as [Hj Hjn].
      apply (q_nest _ _ _ _ Hquiet j n b' b Hjn Hj Hb). apply under_spec. destruct Hq as [k Hq]. destruct Hp as [k' Hp].
      exists (k' ++ k). rewrite app_assoc, <-Hp. exact Hq.
  Qed.
  Lemma set_up_quiet (base : string) (st : setup) :
    set_up hm ub there cpus isdir uid gid f (mount_overlays base mounts).2 binds = Ok st →
    su_fs st = f ∧ su_mounts st = namespace isdir there cpus (mount_overlays base mounts).2 binds.
  Proof using Hwf Htab Hquiet.
    intros H. unfold set_up in H. cbn [mount_overlays snd] in H.
    match goal with H : rbind ?x _ = _ |- _ => destruct x as [s1|] eqn:E1; [|done] end. cbn [rbind] in H.
    apply (overlays_quiet sorted []) in E1 as [Ef Em]; [|done..].
    apply (binds_quiet 0) in H as [Hf' Hm']; [by rewrite Hm'|done|].
    cbn [su_mounts]. rewrite Em, take_0, fmap_nil, app_nil_r, <-app_assoc. done.
  Qed.
End main.

Lemma fresh_no_changes (e : env) (f : fs) (ub : path) (inc : bool) : env_ok e → fresh f ub → changes e f ub inc = Ok [].
Proof.
  intros He Hf. unfold changes. assert (upper_entries e f ub inc = Ok []) as ->; [|done].
  unfold upper_entries. assert (∀ p, p ∈ e_ord e (walkdir f ub) → p = ub ∨ ∃ c, p = ub ++ [c]) as Hall.
  { intros p Hp. rewrite (He _) in Hp. apply elem_of_walkdir in Hp as [Hu [n Hn]]; [|apply Hf..]. by apply (fr_empty _ _ Hf p n). }
  generalize (∅ : cache). induction (e_ord e (walkdir f ub)) as [|p l IH]; intros c; [done|]. cbn [upper_entries_loop].
  assert (upper_entry_of e f ub inc p c = (Ok None, c)) as ->.
  { unfold upper_entry_of. destruct (Hall p) as [-> |[x ->]]; [left|..].
    - rewrite <-(app_nil_r ub) at 2. by rewrite path_strip_app.
    - rewrite path_strip_app. by destruct (decode_base x). }
  cbn [rbind]. rewrite IH; [done|]. intros q Hq. apply Hall. by right.
Qed.

(** Starting a quiet configuration leaves no pending changes, nothing on the host, and the mounts of C57. *)
Theorem C78_quiet_start_partial (e : env) (hm : list path) (ub : path) (there : path → bool) (cpus : list string) (isdir : pbuf → bool) (uid gid : N)
    (f : fs) (base : string) (mounts : list mount_hash) (binds : list bind_mount) (st : setup) (inc : bool) :
  env_ok e → fresh f ub → table_ok f hm mounts → quiet hm f mounts binds →
  set_up hm ub there cpus isdir uid gid f (mount_overlays base mounts).2 binds = Ok st →
  changes e (su_fs st) ub inc = Ok [].
Proof.
  intros He Hf Ht Hq H. apply set_up_quiet in H as [-> _]; [by apply fresh_no_changes|apply Hf|done..].
Qed.
Print Assumptions C78_quiet_start_partial.
Theorem C79_quiet_start_partial (hm : list path) (ub : path) (there : path → bool) (cpus : list string) (isdir : pbuf → bool) (uid gid : N)
    (f : fs) (base : string) (mounts : list mount_hash) (binds : list bind_mount) (st : setup) (p : path) :
  fresh f ub → table_ok f hm mounts → quiet hm f mounts binds →
  set_up hm ub there cpus isdir uid gid f (mount_overlays base mounts).2 binds = Ok st →
  su_fs st !! p = f !! p ∧ su_mounts st = namespace isdir there cpus (mount_overlays base mounts).2 binds.
Proof.
  intros Hf Ht Hq H. apply set_up_quiet in H as [-> ->]; [done|apply Hf|done..].
Qed.
Print Assumptions C79_quiet_start_partial.

(** Two overlaid file systems, a masked directory with a bind inside, a bind below /run, and the data directory. *)
Definition home_mount : mount_hash := MH (b32_encode "/home") "/home".
Definition quiet_binds : list bind_mount :=
  [ BindMount (PB true ["opt"]) (PB true ["opt"]) Mask ""; rw ["x"] ["opt"; "deep"]; rw ["x"] ["home"; "u"]; rw ["x"] ["run"; "new"; "dir"];
    data_bind "/st/a" ].
Example quiet_start : quiet [[]; ["home"]; ["run"]] start_fs [home_mount; root_mount] quiet_binds.
Proof.
  assert (∀ p : path, p ∈ [["opt"]; ["home"; "u"]; ["st"; "a"; "data"]; []; ["home"]] → visible [[]; ["home"]; ["run"]] (dirs_of [home_mount; root_mount]) start_fs p) as Hv.
  { intros p Hp. split.
    - rewrite !elem_of_cons in Hp. destruct Hp as [-> |[-> |[-> |[-> |[-> |Hp]]]]];
        [refine (bool_decide_unpack _ _); vm_compute; exact I..|by apply elem_of_nil in Hp].
    - intros m Hm Hu Hne. rewrite !elem_of_cons in Hm. destruct Hm as [-> |[-> |[-> |Hm]]];
        [left|right; left| |by apply elem_of_nil in Hm].
      exfalso. rewrite !elem_of_cons in Hp. destruct Hp as [-> |[-> |[-> |[-> |[-> |Hp]]]]];
        [discriminate Hu..|by apply elem_of_nil in Hp]. }
  split.
  - intros o Ho. left. rewrite !elem_of_cons in Ho. destruct Ho as [-> |[-> |Ho]]; [..|by apply elem_of_nil in Ho].
    + apply Hv. change (comps (mh_dir home_mount)) with ["home"]. rewrite !elem_of_cons. auto 10.
    + apply Hv. change (comps (mh_dir root_mount)) with (@nil string). rewrite !elem_of_cons. auto 10.
  - intros i b Hb. destruct i as [|[|[|[|[|i]]]]]; cbn in Hb; [injection Hb as <-..|done].
    + left. apply Hv. cbn. left.
    + right. right. exists 0, (BindMount (PB true ["opt"]) (PB true ["opt"]) Mask ""). split; [lia|]. done.
    + left. apply Hv. cbn. right. left.
    + right. left. split.
      * exists "run", ["new"; "dir"]. split; [done|]. right. left.
      * intros d Hd Hu. unfold dirs_of in Hd. rewrite !elem_of_cons in Hd. destruct Hd as [-> |Hd]; [by left|].
        change ((λ o, comps (mh_dir o)) <$> [home_mount; root_mount]) with [["home"]; []] in Hd. 
        rewrite !elem_of_cons in Hd. destruct Hd as [-> |[-> |Hd]]; [discriminate Hu|by left|by apply elem_of_nil in Hd].
    + left. apply Hv. change (place (data_bind "/st/a")) with ["st"; "a"; "data"]. rewrite !elem_of_cons. auto 10.
  - intros i j b b' Hij Hi Hj Hu. destruct i as [|[|[|[|[|i]]]]]; cbn in Hi; [injection Hi as <-..|done]; [done|..];
      destruct j as [|[|[|[|[|j]]]]]; cbn in Hj; try lia; try discriminate Hj; injection Hj as <-; discriminate Hu.
Qed.
Example quiet_start_table : table_ok start_fs [[]; ["home"]; ["run"]] [home_mount; root_mount].
Proof.
  split.
  - intros m Hm. assert (forallb (λ m, match start_fs !! m with Some n => is_kdir (n_kind n) | None => false end) [[]; ["home"]; ["run"]] = true) as K
      by (vm_compute; reflexivity). rewrite forallb_forall in K. apply elem_of_list_In, K in Hm.
    destruct (start_fs !! m) as [n|] eqn:E; [|discriminate Hm]. exists n. split; [exact E|]. destruct (n_kind n); first [reflexivity|discriminate Hm].
  - intros o Ho. rewrite !elem_of_cons in Ho. destruct Ho as [-> |[-> |Ho]]; [..|by apply elem_of_nil in Ho].
    + exists ["home"]. split; [right; left|]. split; [|reflexivity]. apply Forall_singleton. refine (bool_decide_unpack _ _). vm_compute. exact I.
    + exists []. split; [left|]. split; [constructor|reflexivity].
  - refine (bool_decide_unpack _ _). vm_compute. exact I.
Qed.
Definition quiet_result : res setup :=
  set_up [[]; ["home"]; ["run"]] ["st"; "a"; "upper"] (λ _, false) [] (λ _, true) 1000 1000 start_fs (mount_overlays "/st/a" [home_mount; root_mount]).2 quiet_binds.
Example C78_nonvacuous : match quiet_result with
  | Ok st => changes demo_env (su_fs st) ["st"; "a"; "upper"] true = Ok [] ∧ length (su_mounts st) = 15 ∧ su_tmp st = [["run"; "new"; "dir"]; ["run"; "new"]; ["opt"; "deep"]]
  | Err _ => False end.
Proof.
  destruct quiet_result as [st|] eqn:E; [|vm_compute in E; discriminate E]. split.
  - exact (C78_quiet_start_partial demo_env _ _ _ _ _ _ _ _ "/st/a" _ _ st true demo_env_ok start_fresh quiet_start_table quiet_start E).
  - assert (match quiet_result with Ok st => (length (su_mounts st), su_tmp st) | Err _ => (0, []) end = (15, [["run"; "new"; "dir"]; ["run"; "new"]; ["opt"; "deep"]])) as K
      by (vm_compute; reflexivity). rewrite E in K. injection K as K1 K2. split; assumption.
Qed.
Example C79_nonvacuous : match quiet_result with
  | Ok st => su_fs st !! ["opt"; "deep"] = None
  | Err _ => False end.
Proof.
  destruct quiet_result as [st|] eqn:E; [|vm_compute in E; discriminate E].
  destruct (C79_quiet_start_partial _ _ _ _ _ _ _ _ "/st/a" _ _ _ ["opt"; "deep"] start_fresh quiet_start_table quiet_start E) as [H _].
  rewrite H. vm_compute. reflexivity.
Qed.
