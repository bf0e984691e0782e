(** * C33, C37, C38, C39, C44, C57-C59: overlays, settings, the sandbox's view *)
From Verif Require Import PathFacts Order Checkers Mounts.

(** ** C33 *)
(** [p] is properly above [q]. *)
Definition above (p q : path) : Prop := ∃ k, k ≠ [] ∧ q = p ++ k.

Lemma str_cmp_preorder : cmp_preorder str_cmp.
Proof. apply cmp_total_preorder, str_cmp_total. Qed.
Lemma by_dir_preorder : cmp_preorder by_dir.
Proof. apply (cmp_on str_cmp mh_dir), str_cmp_preorder. Qed.
Lemma str_desc_preorder : cmp_preorder str_desc.
Proof. apply (cmp_flip str_cmp), str_cmp_preorder. Qed.
Lemma str_cmp_app (s t : string) : t ≠ "" → str_cmp s (s +:+ t) = Lt.
Proof.
  intros Ht. unfold str_cmp. rewrite to_bytes_app. apply list_cmp_prefix; [apply ascii_cmp_total|].
  destruct t; [done|]. cbn. done.
Qed.
Lemma above_str (p q : path) : Forall comp_ok q → above p q → str_cmp (path_str p) (path_str q) = Lt.
Proof.
  intros Hq (k & Hk & ->). apply Forall_app in Hq as [Hp Hkok]. unfold path_str.
  destruct p as [|c p].
  - cbn [app join_comps]. rewrite str_app_nil_r. apply str_cmp_app.
    destruct k as [|d k]; [done|]. inversion_clear Hkok as [|?? [Hd _] _].
    destruct k; [done|]. rewrite join_comps_cons by done. destruct d; done.
  - rewrite join_comps_app by done. rewrite !str_app_assoc, <-str_app_assoc. apply str_cmp_app. done.
Qed.

Lemma sorted_lookup {A : Type} (cmp : A → A → comparison) (l : list A) (i j : nat) (x y : A) :
  StronglySorted (cmp_le cmp) l → l !! i = Some x → l !! j = Some y → j < i → cmp y x ≠ Gt.
Proof.
  revert i j. induction l as [|z l IH]; intros i j Hs Hi Hj Hlt; [done|].
  apply StronglySorted_inv in Hs as [Hs Hall]. destruct i as [|i]; [lia|]. destruct j as [|j].
  - cbn in Hj. injection Hj as ->. rewrite Forall_forall in Hall. apply Hall. by eapply elem_of_list_lookup_2.
  - apply (IH i j); [done..|lia].
Qed.

Lemma by_dir_order (l : list mount_hash) (i j : nat) (a b : mount_hash) (p q : path) :
  StronglySorted (cmp_le by_dir) l → Forall comp_ok q →
  l !! i = Some a → l !! j = Some b → mh_dir a = path_str p → mh_dir b = path_str q → above p q → i < j.
Proof.
  intros Hs Hq Hi Hj Ha Hb Hab. destruct (decide (i < j)) as [|Hge]; [done|]. exfalso.
  pose proof (above_str p q Hq Hab) as Hlt. rewrite <-Ha, <-Hb in Hlt.
  assert (i = j ∨ j < i) as [-> |Hji] by lia.
  - rewrite Hi in Hj. injection Hj as <-. pose proof (cp_refl _ str_cmp_preorder (mh_dir a)) as Hr. congruence.
  - apply (sorted_lookup by_dir l i j a b Hs Hi Hj Hji). unfold by_dir.
    pose proof (cp_sym _ str_cmp_preorder (mh_dir a) (mh_dir b)) as Hsym. rewrite Hlt in Hsym. done.
Qed.

(** The mounts found are exactly the usable lines of the mount table; the new namespace gets the
    overlay of a mount point before the overlays of everything below it, however the mounts were
    determined. *)
Theorem C33_mounts_found (base : string) (table : list mntent) (l : list mount_hash) :
  scan_system_mounts base table = Ok l →
  (∀ m, m ∈ l ↔ ∃ e, e ∈ table ∧ m = MH (b32_encode (mnt_dir e)) (mnt_dir e) ∧
       (mnt_dir e = "/" ∨ mnt_type e ∈ ACCEPTABLE_MOUNT_TYPES) ∧ path_starts_with (mnt_dir e) base = false) ∧ l ≠ [].
Proof.
  unfold scan_system_mounts. intros H.
  destruct (sort_by by_dir _) as [|x l'] eqn:E; [done|]. injection H as <-. split; [|done].
  intros m. rewrite <-E, elem_of_sort_by, elem_of_list_fmap. unfold hash_mount. split.
  - intros (e & -> & He). apply elem_of_list_filter in He as [Hk He]. exists e. split; [done|]. split; [done|].
    unfold keep_mount in Hk. apply andb_true_iff in Hk as [H1 H2].
    apply negb_true_iff in H2. split; [|done]. apply orb_true_iff in H1 as [H1|H1].
    + left. by apply String.eqb_eq.
    + right. by apply bool_decide_eq_true in H1.
  - intros (e & He & -> & Ht & Hb). exists e. split; [done|]. apply elem_of_list_filter. split; [|done].
    unfold keep_mount. rewrite Hb. rewrite andb_true_r. apply orb_true_iff.
    destruct Ht as [-> |Ht]; [by left|]. right. by apply bool_decide_eq_true.
Qed.

Lemma overlay_mounts_lookup (ms : list mount_hash) (i : nat) (x : mnt) :
  overlay_mounts ms !! i = Some x → ∃ m, filter (λ m, mh_dir m ≠ "/") ms !! i = Some m ∧ x = M (comps (mh_dir m)) (BOverlay m).
Proof. unfold overlay_mounts. rewrite list_lookup_fmap. intros (m & -> & Hm)%fmap_Some. eauto. Qed.

Lemma filter_sorted {A : Type} (R : A → A → Prop) (P : A → Prop) `{!∀ x, Decision (P x)} (l : list A) :
  StronglySorted R l → StronglySorted R (filter P l).
Proof.
  induction l as [|x l IH]; intros Hs; [constructor|]. apply StronglySorted_inv in Hs as [Hs Hall].
  rewrite filter_cons. destruct (decide (P x)); [|by apply IH]. constructor; [by apply IH|].
  rewrite Forall_forall in *. intros y Hy. apply elem_of_list_filter in Hy as [_ Hy]. by apply Hall.
Qed.

Theorem C33_parents_first (base : string) (mounts : list mount_hash) (i j : nat) (a b : mount_hash) (p q : path) :
  Forall comp_ok p → Forall comp_ok q →
  overlay_mounts (mount_overlays base mounts).2 !! i = Some (M p (BOverlay a)) →
  overlay_mounts (mount_overlays base mounts).2 !! j = Some (M q (BOverlay b)) →
  mh_dir a = path_str p → mh_dir b = path_str q → above p q → i < j.
Proof.
  intros Hp Hq Hi Hj Ha Hb Hab. cbn [mount_overlays snd] in Hi, Hj.
  apply overlay_mounts_lookup in Hi as (a' & Hi & [= _ <-]).
  apply overlay_mounts_lookup in Hj as (b' & Hj & [= _ <-]).
  eapply by_dir_order; [|exact Hq|exact Hi|exact Hj|done..].
  apply filter_sorted, sort_by_sorted, by_dir_preorder.
Qed.

(** Unmounting: exactly the mount points at or below the sandbox's directory, deepest first. *)
Theorem C33_unmount (base : string) (table : list mntent) :
  (∀ d, d ∈ unmount_order base table ↔ (∃ e, e ∈ table ∧ mnt_dir e = d) ∧ path_starts_with d base = true) ∧
  (∀ (i j : nat) (p q : path), Forall comp_ok p → Forall comp_ok q →
     unmount_order base table !! i = Some (path_str p) → unmount_order base table !! j = Some (path_str q) →
     above p q → j < i).
Proof.
  split.
  - intros d. unfold unmount_order, get_mounts. rewrite !elem_of_sort_by, elem_of_list_filter, elem_of_list_fmap.
    split; [intros [? (e & -> & ?)]; eauto|]. intros [(e & ? & <-) ?]. eauto.
  - intros i j p q Hp Hq Hi Hj Hab. destruct (decide (j < i)) as [|Hge]; [done|]. exfalso.
    pose proof (above_str p q Hq Hab) as Hlt.
    assert (i = j ∨ i < j) as [-> |Hji] by lia.
    + assert (path_str p = path_str q) as Heq by congruence. rewrite Heq, (cp_refl _ str_cmp_preorder (path_str q)) in Hlt. done.
    + apply (sorted_lookup str_desc (unmount_order base table) j i (path_str q) (path_str p)); [|done..|].
      { apply sort_by_sorted, str_desc_preorder. }
      unfold str_desc. pose proof (cp_sym _ str_cmp_preorder (path_str p) (path_str q)) as Hs. rewrite Hlt in Hs. done.
Qed.
(** "At or below" by components. *)
Lemma path_starts_with_spec (p base : path) : Forall comp_ok p → Forall comp_ok base →
  path_starts_with (path_str p) (path_str base) = true ↔ base `prefix_of` p.
Proof.
  intros Hp Hb. unfold path_starts_with. rewrite !comps_path_str by done.
  assert (∀ q, is_abs (path_str q) = true) as Habs by done. rewrite !Habs. cbn [Bool.eqb andb].
  apply bool_decide_eq_true.
Qed.
Print Assumptions C33_mounts_found.
Print Assumptions C33_parents_first.
Print Assumptions C33_unmount.
Definition demo_table : list mntent :=
  [Mnt "/" "overlay"; Mnt "/proc" "proc"; Mnt "/home/u/data" "xfs"; Mnt "/home" "ext4"; Mnt "/home/u" "btrfs";
   Mnt "/st/sb/overlay/F4" "overlay"; Mnt "/st/sb" "ext4"; Mnt "/st/sbx" "ext4"].
Example C33_nonvacuous :
  (∃ l, scan_system_mounts "/st/sb" demo_table = Ok l ∧ mh_dir <$> l = ["/"; "/home"; "/home/u"; "/home/u/data"; "/st/sbx"]) ∧
  unmount_order "/st/sb" demo_table = ["/st/sb/overlay/F4"; "/st/sb"].
Proof. split; [eexists; split|]; vm_compute; reflexivity. Qed.

(** ** C39 *)
(** The option string means to the kernel what was intended. *)
Definition intended (dir upper work : string) : option kopts :=
  Some (KOpts [dir] (Some upper) (Some work) ["index=off"; "redirect_dir=on"; "metacopy=off"]).
(** For every storage directory that passes the check, every accepted name and every mount. *)
Definition C39_full : Prop :=
  ∀ (storage name : string) (m : mount_hash) (target options : string),
    check_path storage = true → name_ok name = true → is_abs (mh_dir m) = true → mh_hash m = b32_encode (mh_dir m) →
    SOverlay target options ∈ overlay_steps (join_str storage name) m →
    kernel_options options =
      intended (mh_dir m) (join_str (upper_base (join_str storage name)) (mh_hash m))
                          (join_str (work_base (join_str storage name)) (mh_hash m)).

(** A name with a comma replaces the lower directory by a relative one. *)
Theorem C39_refuted : ¬ C39_full.
Proof.
  intros H.
  specialize (H "/st" "a,lowerdir=b" (MH (b32_encode "/") "/") "/st/a,lowerdir=b/overlay/F4"
    "lowerdir=/,upperdir=/st/a,lowerdir=b/upper/F4,workdir=/st/a,lowerdir=b/work/F4,index=off,redirect_dir=on,metacopy=off").
  specialize (H eq_refl eq_refl eq_refl eq_refl).
  discriminate H. apply elem_of_list_In. vm_compute. tauto.
Qed.
(** A mount point with a colon becomes two lower directories. *)
Theorem C39_colon_refuted :
  kernel_options (overlay_options "/mnt/a:b" "/st/s/upper/H" "/st/s/work/H") =
  Some (KOpts ["/mnt/a"; "b"] (Some "/st/s/upper/H") (Some "/st/s/work/H") known_flags).
Proof. vm_compute. reflexivity. Qed.

Definition no_char (c : ascii) (s : string) : Prop := c ∉ to_bytes s.
Lemma split_esc_app (c : ascii) (s t : string) : c ≠ backslash → no_char c s → no_char backslash s →
  split_esc c (s +:+ String c t) = s :: split_esc c t.
Proof.
  intros Hcb. induction s as [|a s IH]; intros Hc Hb.
  - cbn [String.append append split_esc]. change ("" +:+ String c t) with (String c t). cbn [split_esc].
    destruct (Ascii.eqb_spec c backslash); [done|]. by rewrite Ascii.eqb_refl.
  - unfold no_char in *. cbn [to_bytes] in Hc, Hb.
    change (String a s +:+ String c t) with (String a (s +:+ String c t)). cbn [split_esc].
    destruct (Ascii.eqb_spec a backslash) as [-> |]; [set_solver|].
    destruct (Ascii.eqb_spec a c) as [-> |]; [set_solver|].
    rewrite IH by set_solver. done.
Qed.
Lemma split_esc_end (c : ascii) (s : string) : no_char c s → no_char backslash s → split_esc c s = [s].
Proof.
  induction s as [|a s IH]; intros Hc Hb; [done|]. unfold no_char in *. cbn [to_bytes] in Hc, Hb.
  cbn [split_esc]. destruct (Ascii.eqb_spec a backslash) as [-> |]; [set_solver|].
  destruct (Ascii.eqb_spec a c) as [-> |]; [set_solver|]. rewrite IH by set_solver. done.
Qed.
Lemma unescape_id (s : string) : no_char backslash s → unescape s = s.
Proof.
  induction s as [|a s IH]; intros Hb; [done|]. unfold no_char in *. cbn [to_bytes] in Hb. cbn [unescape].
  destruct (Ascii.eqb_spec a backslash) as [-> |]; [set_solver|]. rewrite IH by set_solver. done.
Qed.
Lemma no_char_app (c : ascii) (s t : string) : no_char c (s +:+ t) ↔ no_char c s ∧ no_char c t.
Proof. unfold no_char. rewrite to_bytes_app, elem_of_app. tauto. Qed.

Lemma kernel_options_clean (dir upper work : string) :
  no_char "," dir → no_char backslash dir → no_char ":" dir →
  no_char "," upper → no_char backslash upper → no_char "," work → no_char backslash work →
  kernel_options (overlay_options dir upper work) = intended dir upper work.
Proof.
  intros D1 D2 D3 U1 U2 W1 W2. unfold kernel_options, overlay_options.
  assert (∀ a b c : string, a +:+ b +:+ String "," c = (a +:+ b) +:+ String "," c) as Hassoc.
  { intros. by rewrite str_app_assoc. }
  replace ("lowerdir=" +:+ dir +:+ ",upperdir=" +:+ upper +:+ ",workdir=" +:+ work +:+ ",index=off,redirect_dir=on,metacopy=off")
    with (("lowerdir=" +:+ dir) +:+ String "," (("upperdir=" +:+ upper) +:+ String "," (("workdir=" +:+ work) +:+ String "," "index=off,redirect_dir=on,metacopy=off"))).
  2: { rewrite <-!str_app_assoc. done. }
  assert (∀ k s : string, no_char "," k → no_char backslash k → no_char "," s → no_char backslash s →
    no_char "," (k +:+ s) ∧ no_char backslash (k +:+ s)) as Hk.
  { intros. rewrite !no_char_app. done. }
  assert (∀ s : string, bool_decide (","%char ∉ to_bytes s ∧ backslash ∉ to_bytes s) = true →
    no_char "," s ∧ no_char backslash s) as Hb by (intros s; apply bool_decide_eq_true).
  destruct (Hb "lowerdir=" eq_refl), (Hb "upperdir=" eq_refl), (Hb "workdir=" eq_refl).
  rewrite !split_esc_app by (first [done | apply Hk; done]).
  assert (split_esc "," "index=off,redirect_dir=on,metacopy=off" = known_flags) as -> by (vm_compute; reflexivity).
  cbn [foldl known_flags].
  assert (∀ k (a : ascii) s v, split_once "=" (String a k +:+ String "=" v) = Some (String a k, v) →
    apply_opt (Some s) ((String a k +:+ "=") +:+ v) = apply_opt (Some s) (String a k +:+ String "=" v)) as _.
  { intros. by rewrite <-str_app_assoc. }
  unfold apply_opt at 6.
  change (("lowerdir=" +:+ dir)) with (String "l" ("owerdir=" +:+ dir)). cbn [String.eqb].
  change (split_once "=" (String "l" ("owerdir=" +:+ dir))) with (Some ("lowerdir", dir)). cbv iota beta.
  unfold apply_opt at 5.
  change (("upperdir=" +:+ upper)) with (String "u" ("pperdir=" +:+ upper)). cbn [String.eqb].
  change (split_once "=" (String "u" ("pperdir=" +:+ upper))) with (Some ("upperdir", upper)). cbv iota beta.
  unfold apply_opt at 4.
  change (("workdir=" +:+ work)) with (String "w" ("orkdir=" +:+ work)). cbn [String.eqb].
  change (split_once "=" (String "w" ("orkdir=" +:+ work))) with (Some ("workdir", work)). cbv iota beta.
  cbn [k_lower k_upper k_work k_flags].
  rewrite split_esc_end by done. cbn [fmap list_fmap]. rewrite !unescape_id by done.
  vm_compute. reflexivity.
Qed.

Lemma option_char_ok (a : ascii) : option_char a = true → a ≠ ","%char ∧ a ≠ backslash ∧ a ≠ ":"%char.
Proof. intros H. split_and!; intros ->; vm_compute in H; done. Qed.

Lemma elem_of_split (c a : ascii) (s : string) : a ∈ to_bytes s → a = c ∨ ∃ w, w ∈ split_on c s ∧ a ∈ to_bytes w.
Proof.
  induction s as [|b s IH]; cbn [to_bytes split_on]; intros H; [by apply elem_of_nil in H|].
  destruct (Ascii.eqb_spec b c) as [-> |Hne].
  - apply elem_of_cons in H as [-> |H]; [by left|]. destruct (IH H) as [?|(w & ? & ?)]; [by left|].
    right. exists w. split; [by right|done].
  - destruct (split_on c s) as [|w ws] eqn:E.
    + destruct s as [|x s]; [cbn in E; done|]. cbn in E. destruct (Ascii.eqb x c); [done|].
      destruct (split_on c s); done.
    + apply elem_of_cons in H as [-> |H].
      { right. exists (String b w). split; [by left|]. by left. }
      destruct (IH H) as [?|(w' & Hw' & ?)]; [by left|]. right.
      apply elem_of_cons in Hw' as [-> |Hw'].
      * exists (String b w). split; [by left|]. by right.
      * exists w'. split; [by right|done].
Qed.
Lemma check_path_clean (s : string) : check_path s = true → no_char "," s ∧ no_char backslash s.
Proof.
  unfold check_path. intros [_ H]%andb_true_iff.
  assert (∀ a, a ∈ to_bytes s → a ≠ ","%char ∧ a ≠ backslash) as Ha.
  { intros a Ha. destruct (elem_of_split "/" a s Ha) as [-> |(w & Hw & Haw)]; [done|].
    destruct (decide (w ≠ "" ∧ w ≠ ".")) as [Hd|Hd].
    - rewrite forallb_forall in H. specialize (H w). rewrite forallb_forall in H.
      assert (option_char a = true) as Ho.
      { apply H; [|by apply elem_of_list_In]. apply elem_of_list_In. unfold comps. apply elem_of_list_filter. done. }
      apply option_char_ok in Ho. tauto.
    - destruct (decide (w = "")) as [-> |]; [by apply elem_of_nil in Haw|].
      destruct (decide (w = ".")) as [-> |]; [|tauto].
      apply elem_of_list_singleton in Haw. by subst. }
  split; intros Hin; destruct (Ha _ Hin); done.
Qed.
Lemma join_str_clean (c : ascii) (a b : string) : c ≠ "/"%char → no_char c a → no_char c b → no_char c (join_str a b).
Proof.
  intros Hc Ha Hb. unfold join_str. destruct (is_abs b); [done|]. destruct (ends_with "/" a).
  - by apply no_char_app.
  - apply no_char_app. split; [done|]. apply no_char_app. split; [|done].
    intros Hin. apply elem_of_list_singleton in Hin. done.
Qed.
Lemma b32_clean (c : ascii) (s : string) : c ∉ alphabet → no_char c (b32_encode s).
Proof. intros Hc H. by apply b32_encode_alphabet in H. Qed.

(** Names without comma or backslash and mount points without comma, backslash or colon cannot
    change the options. *)
Theorem C39_options_partial (storage name : string) (m : mount_hash) (target options : string) :
  check_path storage = true → no_char "," name → no_char backslash name →
  no_char "," (mh_dir m) → no_char backslash (mh_dir m) → no_char ":" (mh_dir m) →
  mh_hash m = b32_encode (mh_dir m) →
  SOverlay target options ∈ overlay_steps (join_str storage name) m →
  kernel_options options =
    intended (mh_dir m) (join_str (upper_base (join_str storage name)) (mh_hash m))
                        (join_str (work_base (join_str storage name)) (mh_hash m)).
Proof.
  intros Hst N1 N2 D1 D2 D3 Hh Hin. apply check_path_clean in Hst as [S1 S2].
  unfold overlay_steps in Hin. rewrite !elem_of_cons, elem_of_nil in Hin.
  destruct Hin as [?|[?|[?|[[= -> ->]|[]]]]]; try done.
  assert (∀ c : ascii, c = ","%char ∨ c = backslash → c ≠ "/"%char ∧ c ∉ alphabet) as Hc.
  { intros c [-> | ->]; (split; [done|]);
      [apply (bool_decide_eq_true (","%char ∉ alphabet))|apply (bool_decide_eq_true (backslash ∉ alphabet))]; vm_compute; reflexivity. }
  assert (∀ (x : string) (c : ascii), c = ","%char ∨ c = backslash → no_char c x → no_char c storage → no_char c name →
     no_char c (join_str (join_str (join_str storage name) x) (mh_hash m))) as Hj.
  { intros x c Hcc Hx ? ?. destruct (Hc c Hcc). rewrite Hh.
    apply join_str_clean; [done| |by apply b32_clean]. apply join_str_clean; [done| |done].
    by apply join_str_clean. }
  assert (∀ s : string, bool_decide (","%char ∉ to_bytes s ∧ backslash ∉ to_bytes s) = true →
    no_char "," s ∧ no_char backslash s) as Hb by (intros s; apply bool_decide_eq_true).
  destruct (Hb "upper" eq_refl), (Hb "work" eq_refl).
  apply kernel_options_clean; [done..| | | |]; (apply Hj; [tauto|done..]).
Qed.
Print Assumptions C39_options_partial.
Print Assumptions C39_refuted.
Example C39_nonvacuous : check_path "/home/u/.sandboxes" = true ∧
  ∃ t o, SOverlay t o ∈ overlay_steps (join_str "/home/u/.sandboxes" "my-box") (MH (b32_encode "/home") "/home") ∧
    kernel_options o = Some (KOpts ["/home"] (Some "/home/u/.sandboxes/my-box/upper/F5UG63LF")
                             (Some "/home/u/.sandboxes/my-box/work/F5UG63LF") known_flags).
Proof.
  split; [vm_compute; reflexivity|]. eexists _, _. split.
  - unfold overlay_steps. do 3 right. left.
  - vm_compute. reflexivity.
Qed.

(** ** C44 *)
(** Starting reports success only if every setup step of the sandbox's first process succeeded, and an
    error otherwise. *)
Definition C44_full : Prop := ∀ steps : list outcome,
  start_sandbox steps = Ok tt ↔ Forall (eq StepOk) steps.
Theorem C44_refuted : ¬ C44_full.
Proof. intros H. pose proof (proj1 (H [StepOk; StepDies]) eq_refl) as Hf. inversion_clear Hf as [|?? _ Hf']. inversion_clear Hf'. done. Qed.
(** True if the process does not end without reporting. *)
Theorem C44_start_reports_partial (steps : list outcome) :
  StepDies ∉ steps → start_sandbox steps = Ok tt ↔ Forall (eq StepOk) steps.
Proof.
  unfold start_sandbox. induction steps as [|o l IH]; intros Hd; [done|].
  destruct o; cbn [child_writes].
  - rewrite IH by set_solver. split; [by constructor|by inversion 1].
  - split; [done|]. inversion_clear 1. done.
  - set_solver.
Qed.
Print Assumptions C44_refuted.
Print Assumptions C44_start_reports_partial.
Example C44_nonvacuous : start_sandbox [StepOk; StepOk] = Ok tt ∧ is_ok (start_sandbox [StepOk; StepErr]) = false.
Proof. done. Qed.

(** ** What is seen where *)
Lemma seen_app (a b : list mnt) (p : path) :
  seen (a ++ b) p = match seen b p with Some x => Some x | None => seen a p end.
Proof.
  unfold seen. rewrite filter_app. destruct (filter _ b) as [|x l _] using rev_ind.
  - by rewrite app_nil_r.
  - by rewrite app_assoc, !last_snoc.
Qed.
Lemma seen_some (ms : list mnt) (p : path) (x : backing) :
  seen ms p = Some x → ∃ m, m ∈ ms ∧ m_at m `prefix_of` p ∧ m_what m = x.
Proof.
  unfold seen. intros (m & Hm & ->)%fmap_Some. apply last_Some in Hm as [l Hl].
  assert (m ∈ filter (λ m, m_at m `prefix_of` p) ms) as Hin.
  { rewrite Hl. apply elem_of_app. right. by apply elem_of_list_singleton. }
  apply elem_of_list_filter in Hin as [??]. eauto.
Qed.
Lemma seen_none (ms : list mnt) (p : path) :
  seen ms p = None → ∀ m, m ∈ ms → ¬ m_at m `prefix_of` p.
Proof.
  unfold seen. intros H m Hm Hp. rewrite fmap_None, last_None in H.
  assert (m ∈ filter (λ m, m_at m `prefix_of` p) ms) as Hin by (by apply elem_of_list_filter).
  rewrite H in Hin. by apply elem_of_nil in Hin.
Qed.
Lemma prefix_comparable (a b p : path) : a `prefix_of` p → b `prefix_of` p → a `prefix_of` b ∨ above b a.
Proof.
  intros [x Hx] [y Hy]. subst p. revert b y Hy. induction a as [|c a IH]; intros b y Hy.
  - left. by exists b.
  - destruct b as [|d b].
    + right. by exists (c :: a).
    + cbn in Hy. injection Hy as <- Hy. destruct (IH b y Hy) as [H|(k & Hk & ->)].
      * left. by apply prefix_cons.
      * right. by exists k.
Qed.

(** ** C37 *)
(** Inside the sandbox a host object at or below a masked target is visible only through a bind
    mount that was itself asked for at or below that target; the same for writable ones and a
    read-only target. [base] is the sandbox's directory, whose data directory is bound last. *)
Definition place (b : bind_mount) : path := pb_comps (b_target b).
Definition hides (opt : bopt) (x : backing) : Prop :=
  match opt, x with
  | Mask, BHost _ _ => True
  | ReadOnly, BHost _ false => True
  | _, _ => False
  end.
Definition C37_full : Prop :=
  ∀ (w : world) (a : args) (cfg : config) (base : string) (isdir : pbuf → bool) (there : path → bool)
    (cpus : list string) (mounts : list mount_hash) (b : bind_mount) (p : path) (x : backing),
    (∀ l : list bind_mount, w_order w l ≡ₚ l) → resolve_config w a = Ok cfg →
    b ∈ c_binds cfg → place b `prefix_of` p →
    seen (namespace isdir there cpus mounts (c_binds cfg ++ [data_bind base])) p = Some x →
    hides (b_options b) x →
    ∃ b', b' ∈ c_binds cfg ++ [data_bind base] ∧ place b `prefix_of` place b' ∧ m_what (realise isdir b') = x.

(** A bind of the directory above, mounted after the mask, shows the masked path again. The order is
    that of a hash map: both orders occur. *)
Definition mask_fs : fs := list_to_map [([], dir0); (["h"], dir0); (["h"; "secret"], dir0)].
Definition mask_world (ord : list bind_mount → list bind_mount) : world :=
  World ∅ [] mask_fs [] (Ok (Ugh 1000 1000 "/h")) (λ _, []) ord
    (λ o, Ok "/st") (λ _, Ok "n") (λ _, Ok "l").
Definition mask_args : args := Args None None false false None None (Some ["/h"]) (Some ["/h/secret"]) false false.
Definition mask_binds : list bind_mount :=
  [BindMount (PB true ["h"; "secret"]) (PB true ["h"; "secret"]) Mask "/h/secret:/h/secret:mask";
   BindMount (PB true ["h"]) (PB true ["h"]) ReadWrite "/h"].
Lemma mask_orders : ∃ cfg1 cfg2,
  resolve_config (mask_world (λ l, l)) mask_args = Ok cfg1 ∧ resolve_config (mask_world (λ l, rev l)) mask_args = Ok cfg2 ∧
  (c_binds cfg1 = mask_binds ∧ c_binds cfg2 = rev mask_binds ∨ c_binds cfg2 = mask_binds ∧ c_binds cfg1 = rev mask_binds).
Proof.
  eexists _, _. split; [vm_compute; reflexivity|]. split; [vm_compute; reflexivity|].
  cbn [c_binds]. first [left; split; vm_compute; reflexivity|right; split; vm_compute; reflexivity].
Qed.
Theorem C37_refuted : ¬ C37_full.
Proof.
  intros H. destruct mask_orders as (cfg1 & cfg2 & H1 & H2 & Hc).
  assert (∃ ord cfg, (∀ l : list bind_mount, ord l ≡ₚ l) ∧ resolve_config (mask_world ord) mask_args = Ok cfg ∧
    c_binds cfg = mask_binds) as (ord & cfg & Ho & Hr & Hb).
  { destruct Hc as [[? _]|[? _]].
    - exists (λ l, l), cfg1. split; [done|]. split; done.
    - exists (λ l, rev l), cfg2. split; [intros l; symmetry; apply Permutation_rev|]. split; done. }
  clear H1 H2 Hc.
  specialize (H (mask_world ord) mask_args cfg "/st/sandbox" (λ _, true) (λ _, false) [] [] (BindMount (PB true ["h"; "secret"]) (PB true ["h"; "secret"]) Mask "/h/secret:/h/secret:mask")
    ["h"; "secret"] (BHost (PB true ["h"]) false) Ho Hr).
  rewrite Hb in H. clear Hr Hb.
  destruct H as (b' & Hin & Hp & Hw).
  - left.
  - cbn [place b_target pb_comps]. done.
  - vm_compute. reflexivity.
  - exact I.
  - rewrite !elem_of_app, !elem_of_list_singleton in Hin. unfold mask_binds in Hin.
    rewrite !elem_of_cons, elem_of_nil in Hin.
    destruct Hin as [[-> |[-> |[]]]| ->].
    + discriminate Hw.
    + apply prefix_length in Hp. cbn in Hp. lia.
    + vm_compute in Hw. discriminate Hw.
Qed.

(** It holds for a target that lies below no other bind mount's target, whatever the order. *)
Theorem C37_masked_stays_masked_partial (isdir : pbuf → bool) (there : path → bool)
    (cpus : list string) (mounts : list mount_hash) (binds : list bind_mount) (b : bind_mount) (p : path) (x : backing) :
  b ∈ binds → (∀ b', b' ∈ binds → ¬ above (place b') (place b)) →
  place b `prefix_of` p →
  seen (namespace isdir there cpus mounts binds) p = Some x →
  ∃ b', b' ∈ binds ∧ place b `prefix_of` place b' ∧ m_what (realise isdir b') = x.
Proof.
  intros Hb Hno Hp Hx. unfold namespace in Hx. rewrite !app_assoc, seen_app in Hx.
  destruct (seen (realise isdir <$> binds) p) as [y|] eqn:E.
  - injection Hx as ->. apply seen_some in E as (m & Hm & Hmp & <-).
    apply elem_of_list_fmap in Hm as (b' & -> & Hb'). exists b'. split; [done|]. split; [|done].
    destruct (prefix_comparable (place b) (place b') p Hp Hmp) as [?|Habove]; [done|].
    destruct (Hno b' Hb' Habove).
  - exfalso. apply (seen_none _ _ E (realise isdir b)); [|done]. apply elem_of_list_fmap. eauto.
Qed.
(** At the target itself it is exactly this bind mount. *)
Theorem C37_target_partial (isdir : pbuf → bool) (there : path → bool)
    (cpus : list string) (mounts : list mount_hash) (binds : list bind_mount) (b : bind_mount) :
  b ∈ binds → NoDup (place <$> binds) → (∀ b', b' ∈ binds → ¬ above (place b') (place b)) →
  seen (namespace isdir there cpus mounts binds) (place b) = Some (m_what (realise isdir b)).
Proof.
  intros Hb Hnd Hno.
  destruct (seen (namespace isdir there cpus mounts binds) (place b)) as [x|] eqn:E.
  - unfold namespace in E. rewrite !app_assoc, seen_app in E.
    destruct (seen (realise isdir <$> binds) (place b)) as [y|] eqn:E2.
    + injection E as ->. apply seen_some in E2 as (m & Hm & Hmp & <-).
      apply elem_of_list_fmap in Hm as (b' & -> & Hb'). f_equal. f_equal. f_equal.
      assert (place b' = place b) as Heq.
      { destruct (prefix_comparable (place b) (place b') (place b) ltac:(done) Hmp) as [H|Ha].
        - apply (anti_symm prefix); done.
        - destruct (Hno b' Hb' Ha). }
      apply elem_of_list_lookup in Hb as [i Hi], Hb' as [j Hj].
      assert (i = j) as <-; [|congruence].
      apply (NoDup_lookup (place <$> binds) i j (place b)); [done| |]; rewrite list_lookup_fmap.
      * by rewrite Hi.
      * rewrite Hj. cbn. by rewrite Heq.
    + exfalso. apply (seen_none _ _ E2 (realise isdir b)); [|done]. apply elem_of_list_fmap. eauto.
  - exfalso. apply (seen_none _ _ E (realise isdir b)); [|done]. unfold namespace. rewrite !elem_of_app. right. right. right.
    apply elem_of_list_fmap. eauto.
Qed.
Print Assumptions C37_refuted.
Print Assumptions C37_masked_stays_masked_partial.
Print Assumptions C37_target_partial.
Example C37_nonvacuous :
  let m := BindMount (PB true ["h"; "secret"]) (PB true ["h"; "secret"]) Mask "m" in
  let r := BindMount (PB true ["x"]) (PB true ["x"]) ReadOnly "r" in
  seen (namespace (λ _, true) (λ _, true) [] [] [m; r; data_bind "/st/s"]) ["h"; "secret"; "key"] = Some (BMask false) ∧
  seen (namespace (λ _, true) (λ _, true) [] [] [m; r; data_bind "/st/s"]) ["x"; "y"] = Some (BHost (PB true ["x"]) true).
Proof. vm_compute. done. Qed.

(** ** C58: nothing of the host shows through except what was configured *)
(** At every path the sandboxed process sees an overlay, a fresh pseudo filesystem, a mask, or a bind
    mount that was configured at or above the path (or the sandbox's data directory); a bind
    configured read-only is seen read-only. *)
Theorem C58_only_configured_host_objects (isdir : pbuf → bool) (there : path → bool)
    (cpus : list string) (mounts : list mount_hash) (binds : list bind_mount) (p : path) :
  ∃ x, seen (namespace isdir there cpus mounts binds) p = Some x ∧
  ∀ src ro, x = BHost src ro →
    ∃ b, b ∈ binds ∧ b_source b = src ∧ place b `prefix_of` p ∧ b_options b ≠ Mask ∧
         (b_options b = ReadOnly → ro = true).
Proof.
  destruct (seen (namespace isdir there cpus mounts binds) p) as [x|] eqn:E.
  2: { exfalso. apply (seen_none _ _ E (M [] (BOverlay (MH (b32_encode "/") "/")))); [left|]. apply prefix_nil. }
  exists x. split; [done|]. intros src ro ->. apply seen_some in E as (m & Hm & Hp & Hw).
  unfold namespace in Hm. rewrite !elem_of_app in Hm. destruct Hm as [Hm|[Hm|[Hm|Hm]]].
  - rewrite !elem_of_cons, elem_of_nil in Hm. destruct Hm as [-> |[-> |[-> |[]]]]; done.
  - apply elem_of_list_fmap in Hm as (h & -> & _). done.
  - unfold system_mounts in Hm. rewrite !elem_of_app in Hm. destruct Hm as [Hm|[Hm|Hm]].
    + rewrite !elem_of_cons, elem_of_nil in Hm. repeat destruct Hm as [Hm|Hm]; subst; done.
    + apply elem_of_list_fmap in Hm as (h & -> & _). done.
    + apply elem_of_list_fmap in Hm as (h & -> & _). done.
  - apply elem_of_list_fmap in Hm as (b & -> & Hb). exists b. cbn [realise m_what] in Hw.
    split; [done|]. destruct (b_options b) eqn:Eo; try done; injection Hw as Hs Hr; (split; [done|]);
      (split; [done|]); (split; [done|]); [done|]. intros _. subst ro. cbn. done.
Qed.

(** A path seen through an overlay is seen through the overlay of the host mount it belongs to: the
    deepest one of those used. *)
Theorem C58_right_overlay (isdir : pbuf → bool) (there : path → bool) (cpus : list string)
    (base : string) (mounts : list mount_hash) (binds : list bind_mount) (p : path) (m m' : mount_hash) (q q' : path) :
  let ms := (mount_overlays base mounts).2 in
  seen (namespace isdir there cpus ms binds) p = Some (BOverlay m) →
  m' ∈ mounts → mh_dir m' = path_str q' → Forall comp_ok q' → q' `prefix_of` p →
  mh_dir m = path_str q → Forall comp_ok q →
  q' `prefix_of` q.
Proof.
  cbv zeta. cbn [mount_overlays snd]. intros Hs Hm' Hd' Hq' Hp' Hd Hq.
  unfold namespace in Hs. rewrite seen_app in Hs.
  set (rest := overlay_mounts _ ++ _) in Hs.
  assert (Hovl : q' ≠ [] → M q' (BOverlay m') ∈ overlay_mounts (sort_by by_dir mounts)).
  { intros Hne. apply elem_of_list_fmap. exists m'. rewrite Hd', comps_path_str by done. split; [done|].
    apply elem_of_list_filter. split; [|by apply elem_of_sort_by].
    rewrite Hd'. intros Heq. apply Hne. apply (path_str_inj q' []); [done|constructor|done]. }
  destruct (decide (q' = [])) as [-> |Hne]; [apply prefix_nil|]. specialize (Hovl Hne).
  destruct (seen rest p) as [y|] eqn:E.
  2: { exfalso. apply (seen_none _ _ E (M q' (BOverlay m'))); [|done]. subst rest. apply elem_of_app. by left. }
  injection Hs as ->. subst rest. rewrite seen_app in E.
  destruct (seen (system_mounts there cpus ++ (realise isdir <$> binds)) p) as [y|] eqn:E2.
  { exfalso. injection E as ->. apply seen_some in E2 as (x & Hx & _ & Hw). rewrite elem_of_app in Hx.
    destruct Hx as [Hx|Hx].
    - unfold system_mounts in Hx. rewrite !elem_of_app in Hx. destruct Hx as [Hx|[Hx|Hx]].
      + rewrite !elem_of_cons, elem_of_nil in Hx. repeat destruct Hx as [Hx|Hx]; subst; done.
      + apply elem_of_list_fmap in Hx as (h & -> & _). done.
      + apply elem_of_list_fmap in Hx as (h & -> & _). done.
    - apply elem_of_list_fmap in Hx as (b & -> & _). cbn [realise m_what] in Hw. by destruct (b_options b). }
  unfold seen in E. apply fmap_Some in E as (x & Hx & Hxm). apply last_Some in Hx as [pre Hpre].
  assert (x ∈ filter (λ m, m_at m `prefix_of` p) (overlay_mounts (sort_by by_dir mounts))) as Hxin.
  { rewrite Hpre. apply elem_of_app. right. by apply elem_of_list_singleton. }
  apply elem_of_list_filter in Hxin as [Hxp Hxin].
  apply elem_of_list_fmap in Hxin as (m0 & -> & Hm0). cbn [m_what m_at] in Hxm, Hxp. injection Hxm as <-.
  rewrite Hd, comps_path_str in Hxp by done.
  destruct (prefix_comparable q' q p Hp' Hxp) as [?|Hab]; [done|]. exfalso.
  assert (M q' (BOverlay m') ∈ filter (λ m, m_at m `prefix_of` p) (overlay_mounts (sort_by by_dir mounts))) as Hin'.
  { by apply elem_of_list_filter. }
  (* m' comes before m in the list, although q is above q' *)
  assert (StronglySorted (λ x y : mnt, match m_what x, m_what y with BOverlay a, BOverlay b => cmp_le by_dir a b | _, _ => True end)
     (filter (λ m, m_at m `prefix_of` p) (overlay_mounts (sort_by by_dir mounts)))) as Hsorted.
  { apply filter_sorted. unfold overlay_mounts.
    pose proof (filter_sorted (cmp_le by_dir) (λ m, mh_dir m ≠ "/") _ (sort_by_sorted by_dir mounts by_dir_preorder)) as Hss.
    clear -Hss. induction (filter (λ m, mh_dir m ≠ "/") (sort_by by_dir mounts)) as [|z l IH]; [constructor|].
    apply StronglySorted_inv in Hss as [Hss Hall]. cbn [fmap list_fmap]. constructor; [by apply IH|].
    apply Forall_fmap. eapply Forall_impl; [exact Hall|]. intros y Hy. cbn. done. }
  rewrite Hpre in Hsorted, Hin'. apply elem_of_app in Hin' as [Hin'|Hin'].
  2: { apply elem_of_list_singleton in Hin'. injection Hin' as Hqq <-.
       assert (q = q') as <- by (apply path_str_inj; [done..|congruence]).
       destruct Hab as (k & Hk & Habs). rewrite <-(app_nil_r q) in Habs at 1. apply app_inv_head in Habs. by subst. }
  apply elem_of_list_lookup in Hin' as [i Hi].
  assert (∀ (R : mnt → mnt → Prop) (l : list mnt) (z y : mnt), StronglySorted R (l ++ [z]) → y ∈ l → R y z) as Haux.
  { clear. intros R l z y. induction l as [|a l IH]; intros Hs Hy; [by apply elem_of_nil in Hy|].
    cbn in Hs. apply StronglySorted_inv in Hs as [Hs Hall]. apply elem_of_cons in Hy as [-> |Hy]; [|by apply IH].
    rewrite Forall_forall in Hall. apply Hall. apply elem_of_app. right. by apply elem_of_list_singleton. }
  specialize (Haux _ _ _ (M q' (BOverlay m')) Hsorted (elem_of_list_lookup_2 _ _ _ Hi)). cbn in Haux.
  apply Haux. unfold by_dir. rewrite Hd, Hd'.
  pose proof (above_str q q' Hq' Hab) as Hlt.
  rewrite (cp_sym _ str_cmp_preorder), Hlt. done.
Qed.
Print Assumptions C58_only_configured_host_objects.
Print Assumptions C58_right_overlay.
Example C58_nonvacuous :
  let ms := (mount_overlays "/st/s" [hash_mount (Mnt "/home" "ext4"); hash_mount (Mnt "/" "ext4"); hash_mount (Mnt "/home/u" "xfs")]).2 in
  seen (namespace (λ _, true) (λ _, true) [] ms [data_bind "/st/s"]) ["home"; "u"; "f"] = Some (BOverlay (hash_mount (Mnt "/home/u" "xfs"))) ∧
  seen (namespace (λ _, true) (λ _, true) [] ms [data_bind "/st/s"]) ["home"; "v"] = Some (BOverlay (hash_mount (Mnt "/home" "ext4"))) ∧
  seen (namespace (λ _, true) (λ _, true) [] ms [data_bind "/st/s"]) ["st"; "s"; "data"; "x"] = Some (BHost (PB true ["st"; "s"; "data"]) false).
Proof. vm_compute. done. Qed.

(** The kernel interfaces masked in the list stay masked unless a bind mount was configured there. *)
Theorem C58_system_masks (isdir : pbuf → bool) (there : path → bool) (cpus : list string)
    (mounts : list mount_hash) (binds : list bind_mount) (p q : path) :
  (p ∈ [["proc"; "asound"]; ["proc"; "acpi"]; ["proc"; "interrupts"]; ["proc"; "kcore"]; ["proc"; "keys"];
          ["proc"; "latency_stats"]; ["proc"; "timer_list"]; ["proc"; "timer_stats"]; ["proc"; "sched_debug"];
          ["proc"; "scsi"]; ["sys"; "firmware"]; ["sys"; "devices"; "virtual"; "powercap"]] ∨
   ∃ c, c ∈ cpus ∧ p = ["sys"; "devices"; "system"; "cpu"; c; "thermal_throttle"]) →
  there p = true → p `prefix_of` q → (∀ b, b ∈ binds → ¬ place b `prefix_of` q) →
  seen (namespace isdir there cpus mounts binds) q = Some (BMask true).
Proof.
  intros Hp Ht Hq Hno. unfold namespace, system_mounts. rewrite !seen_app.
  destruct (seen (realise isdir <$> binds) q) as [y|] eqn:E1.
  { exfalso. apply seen_some in E1 as (m & Hm & Hmq & _). apply elem_of_list_fmap in Hm as (b & -> & Hb). by apply (Hno b). }
  match goal with |- context [seen ?l q] => lazymatch l with context [BSelf] => destruct (seen l q) as [y|] eqn:E2 end end.
  { exfalso. apply seen_some in E2 as (m & Hm & Hmq & _). apply elem_of_list_fmap in Hm as (r & -> & Hr).
    apply elem_of_list_filter in Hr as [_ Hr]. cbn [m_at] in Hmq.
    destruct Hmq as [k1 Hk1], Hq as [k2 Hk2]. rewrite Hk2 in Hk1. clear -Hp Hr Hk1.
    rewrite !elem_of_cons, !elem_of_nil in Hr.
    destruct Hp as [Hp|(c & _ & ->)].
    - rewrite !elem_of_cons, !elem_of_nil in Hp.
      repeat destruct Hp as [-> |Hp]; [..|done]; repeat destruct Hr as [-> |Hr]; try done; discriminate Hk1.
    - repeat destruct Hr as [-> |Hr]; try done; discriminate Hk1. }
  match goal with |- context [seen ?l q] => lazymatch l with context [BMask] => destruct (seen l q) as [y|] eqn:E3 end end.
  { apply seen_some in E3 as (m & Hm & _ & <-). apply elem_of_list_fmap in Hm as (r & -> & _). done. }
  exfalso. apply (seen_none _ _ E3 (M p (BMask true))); [|done].
  apply elem_of_list_fmap. exists p. split; [done|]. apply elem_of_list_filter. split; [done|].
  apply elem_of_app. destruct Hp as [Hp|(c & Hc & ->)]; [by left|]. right. apply elem_of_list_fmap. eauto.
Qed.
Print Assumptions C58_system_masks.

(** ** C38 *)
(** [s] are the settings written when the sandbox was created with network [net0] and binds [binds0];
    a later request that reuses it has the same network and the same binds. *)
Definition C38_full : Prop :=
  ∀ (base storage : string) (net0 net : network) (binds0 binds : list bind_mount)
    (table0 table : list mntent) (parent0 parent : option (res settings)) (s : settings) (steps : list step) (ms : list mount_hash),
    get_or_create base storage net0 binds0 false None table0 parent0 = Ok (Create s steps ms) →
    get_or_create base storage net binds true (Some (Ok s)) table parent = Ok Reuse →
    net = net0 ∧ ∀ b, b ∈ binds ↔ b ∈ binds0.

(** A bind mount whose argument is the word "data" is not compared. *)
Definition host_data : bind_mount := BindMount (PB true ["home"; "u"; "data"]) (PB true ["home"; "u"; "data"]) ReadWrite "data".
Example host_data_possible :
  parse_bind_mount (list_to_map [([], dir0); (["home"], dir0); (["home"; "u"], dir0); (["home"; "u"; "data"], dir0)])
    ["home"; "u"] (Ok "/home/u") "data" = Ok host_data.
Proof. vm_compute. reflexivity. Qed.
Theorem C38_refuted : ¬ C38_full.
Proof.
  intros H.
  destruct (get_or_create "/st/s" "/st" NetNone [] false None demo_table None) as [[|s steps ms]|] eqn:E; try (vm_compute in E; discriminate E).
  specialize (H "/st/s" "/st" NetNone NetNone [] [host_data] demo_table demo_table None None s steps ms E).
  assert (get_or_create "/st/s" "/st" NetNone [host_data] true (Some (Ok s)) demo_table None = Ok Reuse) as Hr.
  { revert E. vm_compute. intros E. injection E as <- _ _. vm_compute. reflexivity. }
  destruct (H Hr) as [_ Hb]. specialize (Hb host_data). rewrite elem_of_nil in Hb. apply Hb. by left.
Qed.
(** If the settings file is gone nothing is compared. (It lies in the data directory, which is bound
    writable into the sandbox.) *)
Theorem C38_missing_settings_refuted :
  ∀ base storage net binds table parent, get_or_create base storage net binds true None table parent = Ok Reuse.
Proof. done. Qed.

Lemma sort_by_perm_inj {A : Type} (cmp : A → A → comparison) (l k : list A) : sort_by cmp l = sort_by cmp k → l ≡ₚ k.
Proof. intros H. rewrite <-(sort_by_perm cmp l), H. apply sort_by_perm. Qed.
Lemma filter_all {A : Type} (P : A → Prop) `{!∀ x, Decision (P x)} (l : list A) : Forall P l → filter P l = l.
Proof. induction 1 as [|x l Hx _ IH]; [done|]. rewrite filter_cons_True by done. by rewrite IH. Qed.
Lemma filter_data (base : string) (binds : list bind_mount) : (∀ b, b ∈ binds → b_argument b ≠ "data") →
  filter (λ b, b_argument b ≠ "data") (binds ++ [data_bind base]) = binds.
Proof.
  intros H. rewrite filter_app. rewrite (filter_all _ binds); [|by apply Forall_forall].
  rewrite filter_cons, decide_False; [|cbn; tauto]. cbn. by rewrite app_nil_r.
Qed.

Lemma validate_ok (old cur : settings) : validate_against_config old cur = Ok tt ↔
  st_net old = st_net cur ∧ st_mounts old = st_mounts cur ∧ user_bind_mounts old = user_bind_mounts cur.
Proof.
  unfold validate_against_config. repeat case_bool_decide; cbn [negb]; split; try done; intros (? & ? & ?); done.
Qed.

Lemma create_ok (base storage : string) (net0 : network) (binds0 : list bind_mount) (table0 : list mntent)
    (parent0 : option (res settings)) (s : settings) (steps : list step) (ms : list mount_hash) :
  get_or_create base storage net0 binds0 false None table0 parent0 = Ok (Create s steps ms) →
  ∃ mounts, determine_mounts base table0 parent0 = Ok mounts ∧ ms = sort_by by_dir mounts ∧
    s = Settings "" (sort_by by_dir mounts) net0 (binds0 ++ [data_bind base]) ∧
    steps = (mount_overlays base mounts).1 ∧ check_path storage = true.
Proof.
  cbn [get_or_create]. destruct (check_path storage); [|done]. intros H.
  destruct (determine_mounts base table0 parent0) as [mounts|]; cbn [rbind] in H; [|done].
  destruct (mount_overlays base mounts) as [st m] eqn:E.
  injection H as <- <- <-. exists mounts. unfold mount_overlays in E. injection E as <- <-. done.
Qed.

(** Apart from such arguments: reuse means the same network, mounts and binds. *)
Theorem C38_reuse_needs_same_settings_partial (base storage : string) (net0 net : network) (binds0 binds : list bind_mount)
    (table0 table : list mntent) (parent0 parent : option (res settings)) (s : settings) (steps : list step) (ms : list mount_hash) :
  (∀ b, b ∈ binds0 ++ binds → b_argument b ≠ "data") →
  get_or_create base storage net0 binds0 false None table0 parent0 = Ok (Create s steps ms) →
  get_or_create base storage net binds true (Some (Ok s)) table parent = Ok Reuse →
  net = net0 ∧ binds ≡ₚ binds0 ∧ determine_mounts base table parent = Ok ms.
Proof.
  intros Hd Hc Hr. apply create_ok in Hc as (mounts0 & Hm0 & -> & -> & _ & _).
  cbn [get_or_create] in Hr. change (rbind (Ok ?s) ?k) with (k s) in Hr. cbv beta in Hr.
  destruct (determine_mounts base table parent) as [mounts|]; cbn [rbind] in Hr; [|done].
  match type of Hr with rbind (validate_against_config ?a ?b) _ = _ =>
    destruct (validate_against_config a b) as [[]|] eqn:Ev; cbn [rbind] in Hr; [|done] end.
  apply validate_ok in Ev as (E1 & E2 & E3). cbn in E1, E2. split; [done|].
  unfold user_bind_mounts, from_config in E3. cbn [st_binds] in E3.
  rewrite !filter_data in E3 by (intros b Hb; apply Hd, elem_of_app; tauto).
  apply sort_by_perm_inj in E3. split; [done|]. by rewrite <-E2.
Qed.

Lemma sort_sorted_id {A : Type} (cmp : A → A → comparison) (l : list A) :
  StronglySorted (cmp_le cmp) l → sort_by cmp l = l.
Proof.
  induction l as [|x l IH]; intros Hs; [done|]. apply StronglySorted_inv in Hs as [Hs Hall].
  unfold sort_by in *. cbn [foldr]. rewrite IH by done. destruct l as [|y l]; [done|]. cbn [insert_by].
  inversion_clear Hall as [|?? Hxy _]. unfold cmp_le in Hxy. by destruct (cmp x y).
Qed.
Lemma sorted_perm_eq (l k : list bind_mount) : l ≡ₚ k → NoDup (b_argument <$> l) →
  StronglySorted (cmp_le by_argument) l → StronglySorted (cmp_le by_argument) k → l = k.
Proof.
  revert k. induction l as [|x l IH]; intros k Hp Hnd Hl Hk.
  - by apply Permutation_nil in Hp.
  - destruct k as [|y k]; [by apply Permutation_nil_r in Hp|].
    assert (x = y) as <-.
    { assert (x ∈ y :: k) as Hx by (rewrite <-Hp; left). assert (y ∈ x :: l) as Hy by (rewrite Hp; left).
      apply elem_of_cons in Hx as [?|Hx]; [done|]. apply elem_of_cons in Hy as [?|Hy]; [done|].
      apply StronglySorted_inv in Hl as [_ Hl], Hk as [_ Hk]. rewrite Forall_forall in Hl, Hk.
      specialize (Hl y Hy). specialize (Hk x Hx). unfold cmp_le, by_argument in Hl, Hk.
      destruct str_cmp_total as [Teq Tsym _]. rewrite Tsym in Hk.
      destruct (str_cmp (b_argument x) (b_argument y)) eqn:E; try done.
      apply Teq in E. exfalso. cbn [fmap list_fmap] in Hnd. apply NoDup_cons in Hnd as [Hnd _].
      apply Hnd. rewrite E. by apply elem_of_list_fmap_1. }
    f_equal. apply IH.
    + by apply Permutation_cons_inv in Hp.
    + cbn [fmap list_fmap] in Hnd. by apply NoDup_cons in Hnd as [_ ?].
    + by apply StronglySorted_inv in Hl as [? _].
    + by apply StronglySorted_inv in Hk as [? _].
Qed.

Lemma NoDup_fmap_filter {A B : Type} (g : A → B) (P : A → Prop) `{!∀ x, Decision (P x)} (l : list A) :
  NoDup (g <$> l) → NoDup (g <$> filter P l).
Proof.
  induction l as [|x l IH]; intros Hnd; [constructor|]. cbn [fmap list_fmap] in Hnd. apply NoDup_cons in Hnd as [Hx Hnd].
  rewrite filter_cons. destruct (decide (P x)); [|by apply IH]. cbn [fmap list_fmap]. constructor; [|by apply IH].
  intros (y & Hy & Hin)%elem_of_list_fmap. apply elem_of_list_filter in Hin as [_ Hin]. apply Hx.
  rewrite Hy. by apply elem_of_list_fmap_1.
Qed.

(** The same request again, in whatever order the hash map returns the binds, is accepted. *)
Theorem C38_same_request_reuses (base storage : string) (net : network) (binds0 binds : list bind_mount)
    (table : list mntent) (s : settings) (steps : list step) (ms : list mount_hash) :
  NoDup (b_argument <$> binds0) → binds ≡ₚ binds0 →
  get_or_create base storage net binds0 false None table None = Ok (Create s steps ms) →
  get_or_create base storage net binds true (Some (Ok s)) table None = Ok Reuse.
Proof.
  intros Hnd Hp Hc. apply create_ok in Hc as (mounts0 & Hm0 & -> & -> & _ & _).
  cbn [get_or_create]. change (rbind (Ok ?s) ?k) with (k s). cbv beta. rewrite Hm0. cbn [rbind].
  match goal with |- rbind (validate_against_config ?a ?b) _ = _ =>
    assert (validate_against_config a b = Ok tt) as ->; [|done] end.
  apply validate_ok. cbn [st_net st_mounts from_config]. split; [done|]. split.
  - cbn in Hm0. unfold scan_system_mounts in Hm0. destruct (sort_by by_dir _) as [|x l] eqn:E; [done|].
    injection Hm0 as <-. rewrite <-E. rewrite sort_sorted_id; [done|]. apply sort_by_sorted, by_dir_preorder.
  - unfold user_bind_mounts. cbn [st_binds].
    assert (Hpre : cmp_preorder by_argument) by (apply (cmp_on str_cmp b_argument), str_cmp_preorder).
    assert (Hpf : filter (λ b, b_argument b ≠ "data") (binds0 ++ [data_bind base]) ≡ₚ
                  filter (λ b, b_argument b ≠ "data") (binds ++ [data_bind base])) by (by rewrite Hp).
    apply sorted_perm_eq; [|..|by apply sort_by_sorted|by apply sort_by_sorted].
    + by rewrite !sort_by_perm.
    + rewrite sort_by_perm. rewrite filter_app. rewrite (filter_cons_False _ (data_bind base)) by (cbn; tauto).
      cbn. rewrite app_nil_r. by apply NoDup_fmap_filter.
Qed.
Print Assumptions C38_refuted.
Print Assumptions C38_reuse_needs_same_settings_partial.
Print Assumptions C38_same_request_reuses.
Example C38_nonvacuous : ∃ s steps ms,
  get_or_create "/st/s" "/st" NetNone (rev mask_binds) false None demo_table None = Ok (Create s steps ms) ∧
  get_or_create "/st/s" "/st" NetNone mask_binds true (Some (Ok s)) demo_table None = Ok Reuse ∧
  is_ok (get_or_create "/st/s" "/st" NetHost mask_binds true (Some (Ok s)) demo_table None) = false ∧
  is_ok (get_or_create "/st/s" "/st" NetNone (take 1 mask_binds) true (Some (Ok s)) demo_table None) = false.
Proof. eexists _, _, _. split; [vm_compute; reflexivity|]. vm_compute. done. Qed.

(** ** C59: starting creates directories only below the sandbox's directory *)
(** The directories made (with the privileges of the program) are the sandbox's directory and
    directories below it. *)
Definition inside (base d : string) : Prop :=
  is_abs d = is_abs base ∧ ∃ k, comps d = comps base ++ k ∧ Forall comp_ok k.
Definition C59_full : Prop :=
  ∀ (base storage : string) (net : network) (binds : list bind_mount) (table : list mntent)
    (parent : option (res settings)) (s : settings) (steps : list step) (ms : list mount_hash) (d like : string),
    base ≠ "" → (∀ e, e ∈ table → mnt_dir e ≠ "") →
    get_or_create base storage net binds false None table parent = Ok (Create s steps ms) →
    SMkdir d like ∈ steps → inside base d.
(** A file settings.json in the storage directory, which the user controls, names the directories. *)
Theorem C59_refuted : ¬ C59_full.
Proof.
  intros H.
  set (evil := Settings "" [MH "/etc/evil" "/home/u"] NetNone []).
  destruct (get_or_create "/st/s" "/st" NetNone [] false None demo_table (Some (Ok evil))) as [[|s steps ms]|] eqn:E;
    try (vm_compute in E; discriminate E).
  specialize (H "/st/s" "/st" NetNone [] demo_table (Some (Ok evil)) s steps ms "/etc/evil" "/home/u").
  assert (Hin : SMkdir "/etc/evil" "/home/u" ∈ steps).
  { apply create_ok in E as (m & [= <-] & _ & _ & -> & _). apply elem_of_list_In. vm_compute. tauto. }
  destruct H as (_ & k & Hk & _); [done| |done|done|vm_compute in Hk; discriminate Hk].
  intros e He. unfold demo_table in He. rewrite !elem_of_cons, elem_of_nil in He.
  repeat destruct He as [-> |He]; done.
Qed.

Lemma comps_join (a b : string) : is_abs b = false → a ≠ "" → comps (join_str a b) = comps a ++ comps b ∧ is_abs (join_str a b) = is_abs a.
Proof.
  intros Hb Ha. unfold join_str. rewrite Hb. destruct (ends_with "/" a) eqn:E.
  - apply ends_with_spec in E as [t ->]. split.
    + rewrite <-str_app_assoc. unfold comps. change ("/" +:+ b) with (String "/" b). change "/" with (String "/" "").
      rewrite !split_on_app, !filter_app. change (split_on "/" "") with [""].
      rewrite (filter_cons_False _ "") by (intros [? _]; done). change (filter (λ c : string, c ≠ "" ∧ c ≠ ".") []) with (@nil string). by rewrite app_nil_r.
    + destruct t; done.
  - split.
    + unfold comps. change ("/" +:+ b) with (String "/" b). by rewrite split_on_app, filter_app.
    + destruct a; done.
Qed.
Lemma inside_join (base d x : string) : base ≠ "" → d ≠ "" → inside base d → comp_ok x → inside base (join_str d x).
Proof.
  intros Hb Hd (Ha & k & Hk & Hok) Hx.
  assert (is_abs x = false) as Hax.
  { destruct Hx as (_ & _ & _ & Hs). unfold is_abs. destruct (starts_with "/" x) eqn:E; [|done].
    apply starts_with_spec in E as [t ->]. rewrite (proj2 (contains_spec _ _)) in Hs by (by exists "", t). done. }
  destruct (comps_join d x Hax Hd) as [H1 H2]. split; [congruence|]. exists (k ++ [x]).
  rewrite H1, Hk, <-app_assoc. split.
  - f_equal. f_equal. unfold comps. destruct Hx as (? & ? & ? & ?). rewrite split_on_noslash by done.
    rewrite filter_cons_True by done. done.
  - apply Forall_app. split; [done|]. by constructor.
Qed.
Lemma join_nonempty (a b : string) : a ≠ "" → join_str a b ≠ "".
Proof.
  intros Ha. unfold join_str. destruct (is_abs b) eqn:E.
  - destruct b; [discriminate E|discriminate].
  - destruct (ends_with "/" a); (destruct a; [congruence|discriminate]).
Qed.

Theorem C59_confined_partial (base storage : string) (net : network) (binds : list bind_mount) (table : list mntent)
    (s : settings) (steps : list step) (ms : list mount_hash) (d like : string) :
  base ≠ "" → (∀ e, e ∈ table → mnt_dir e ≠ "") →
  get_or_create base storage net binds false None table None = Ok (Create s steps ms) →
  SMkdir d like ∈ steps → inside base d.
Proof.
  intros Hb Ht Hc Hin. apply create_ok in Hc as (mounts & Hm & _ & _ & -> & _).
  assert (inside base base) as Hbb by (split; [done|]; exists []; by rewrite app_nil_r).
  assert (∀ x, comp_ok x → inside base (join_str base x)) as Hj by (intros; by apply inside_join).
  assert (∀ x, comp_okb x = true → comp_ok x) as Hck by (intros x; apply comp_okb_spec).
  cbn [mount_overlays fst] in Hin. rewrite !elem_of_app in Hin. destruct Hin as [Hin|[Hin|Hin]].
  - rewrite !elem_of_cons, elem_of_nil in Hin. destruct Hin as [[= -> ->]|[[= -> ->]|[]]]; [done|].
    apply Hj, Hck. done.
  - apply elem_of_list_In, in_flat_map in Hin as (m & Hmin & Hin). apply elem_of_list_In in Hmin, Hin.
    assert (comp_ok (mh_hash m)) as Hh.
    { cbn in Hm. destruct (C33_mounts_found _ _ _ Hm) as [Hf _]. apply Hf in Hmin as (e & He & -> & _).
      cbn. apply b32_encode_comp_ok. by apply Ht. }
    unfold overlay_steps in Hin. rewrite !elem_of_cons, elem_of_nil in Hin.
    assert (∀ x, comp_okb x = true → inside base (join_str (join_str base x) (mh_hash m))) as Hjj.
    { intros x Hx. apply inside_join; [done|by apply join_nonempty|apply Hj; by apply Hck|done]. }
    destruct Hin as [[= -> _]|[[= -> _]|[[= -> _]|[?|[]]]]]; try done; by apply Hjj.
  - apply elem_of_list_singleton in Hin. done.
Qed.
Print Assumptions C59_refuted.
Print Assumptions C59_confined_partial.
Example C59_nonvacuous : ∃ s steps ms,
  get_or_create "/st/s" "/st" NetNone [] false None demo_table None = Ok (Create s steps ms) ∧ SMkdir "/st/s/work/F5UG63LF" "/home" ∈ steps.
Proof.
  eexists _, _, _. split; [vm_compute; reflexivity|]. apply elem_of_list_In. vm_compute. tauto.
Qed.
