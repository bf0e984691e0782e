(** * Names, attributes, redirects, mount points, recursive removal (C22-C26, C32). *)
From Verif Require Export Props_Accept RedirectSpec.

(** ** C22: mount point directory names *)
(** A name the kernel accepts as a directory entry. *)
Definition valid_name (s : string) : Prop :=
  s ≠ "" ∧ s ≠ "." ∧ s ≠ ".." ∧ contains "/" s = false ∧ String.length s ≤ 255.

Definition C22_full : Prop := ∀ m, m ≠ "" → String.length m ≤ 4095 → valid_name (b32_encode m).
(** False: a mount point path of 160 bytes or more gives a name longer than NAME_MAX. *)
Theorem C22_refuted : ¬ C22_full.
Proof.
  intros H. set (m := of_bytes (replicate 160 "/"%char)). specialize (H m).
  assert (m ≠ "") as H1 by discriminate.
  assert (String.length m ≤ 4095) as H2 by (vm_compute; lia).
  destruct (H H1 H2) as (_ & _ & _ & _ & H5). clear H H1 H2.
  assert (String.length (b32_encode m) = 256) as E by (vm_compute; reflexivity). lia.
Qed.
Print Assumptions C22_refuted.

Lemma chunk5_length (l : list bool) : length (chunk5 l) * 5 < length l + 5.
Proof.
  remember (length l) as n eqn:Hn. revert l Hn. induction n as [n IH] using lt_wf_ind. intros l Hn.
  destruct l as [|a [|b [|c [|d [|e r]]]]]; cbn [chunk5 length] in *; [lia..|].
  specialize (IH (length r) ltac:(lia) r eq_refl). lia.
Qed.
Lemma to_bytes_length (s : string) : length (to_bytes s) = String.length s.
Proof. induction s as [|c s IH]; [done|]. simpl. by rewrite <-IH. Qed.
Lemma of_bytes_length (l : list ascii) : String.length (of_bytes l) = length l.
Proof. rewrite <-to_bytes_length. by rewrite to_of_bytes. Qed.
Lemma b32_encode_length (s : string) : String.length (b32_encode s) * 5 < String.length s * 8 + 5.
Proof.
  unfold b32_encode. rewrite of_bytes_length, fmap_length, <-(to_bytes_length s).
  pose proof (chunk5_length (mjoin (byte_bits <$> to_bytes s))) as H.
  assert (length (mjoin (byte_bits <$> to_bytes s)) = length (to_bytes s) * 8) as E.
  { clear H. induction (to_bytes s) as [|c l IH]; [done|]. rewrite fmap_cons. change (mjoin (?x :: ?y)) with (x ++ mjoin y).
    rewrite app_length, IH. destruct c. simpl. lia. }
  lia.
Qed.

(** Decoding gives the mount point back, different mount points get different names, and the name
    is valid, for every mount point of at most 159 bytes. *)
Theorem C22_names_round_trip_partial : ∀ m m',
  b32_decode (b32_encode m) = Some m ∧
  (b32_encode m = b32_encode m' → m = m') ∧
  (m ≠ "" → String.length m ≤ 159 → valid_name (b32_encode m)).
Proof.
  intros m m'. split; [apply b32_roundtrip|]. split; [apply b32_encode_inj|]. intros Hm Hl.
  destruct (b32_encode_comp_ok m Hm) as (H1 & H2 & H3 & H4). pose proof (b32_encode_length m).
  split; [done|]. split; [done|]. split; [done|]. split; [done|]. lia.
Qed.
Print Assumptions C22_names_round_trip_partial.
(** The whole way used by the program: the path of a mount point is recovered from the name. *)
Theorem C22_mount_path_recovered : ∀ m, Forall comp_ok m → utf8_valid (path_str m) = true →
  decode_base (b32_encode (path_str m)) = Some m.
Proof. intros m Hm Hu. unfold decode_base. by rewrite b32_roundtrip, Hu, comps_path_str. Qed.
Print Assumptions C22_mount_path_recovered.
Example C22_nonvacuous : b32_encode "/home" = "F5UG63LF" ∧ b32_decode "F5UG63LF" = Some "/home"
  ∧ decode_base "F5UG63LF" = Some ["home"] ∧ b32_decode "F5UG63L" = None.
Proof. vm_compute. done. Qed.

(** ** C23: redirect attributes are read whole *)
Definition C23_full : Prop := ∀ (f : fs) (p : path) (n : node) (v : string), wf_tree f → f !! p = Some n →
  redirect n = Some v → (N.of_nat (String.length v) ≤ 65536)%N → is_renamed f (details_of p n) = Ok (Some v).

(** False: a value that is not valid UTF-8 (a directory with such a name was renamed) is read with its
    bytes replaced, and the attribute of a directory with such a name cannot be read at all. *)
Definition rdir (r : string) : node := Node KDir 493 0 0 1 {[ "trusted.overlay.redirect" := r ]}.
Definition odd_redirect_fs : fs := list_to_map [ ([], dir0); (["d"], rdir latin1); ([latin1], rdir "/d") ].
Theorem C23_refuted : ¬ C23_full.
Proof.
  intros H. assert (wf_tree odd_redirect_fs) as Hw by (apply wf_treeb_spec; vm_compute; reflexivity).
  specialize (H odd_redirect_fs ["d"] (rdir latin1) latin1 Hw eq_refl eq_refl ltac:(vm_compute; discriminate)).
  vm_compute in H. discriminate H.
Qed.
Print Assumptions C23_refuted.
Example C23_refuted_values :
  is_renamed odd_redirect_fs (details_of ["d"] (rdir latin1)) = Ok (Some ("c" +:+ of_bytes replacement)) ∧
  is_renamed odd_redirect_fs (details_of [latin1] (rdir "/d")) = Err ENOENT.
Proof. vm_compute. split; reflexivity. Qed.

Theorem C23_redirect_read_whole_partial : ∀ f p n, wf_tree f → f !! p = Some n → utf8_path p →
  (∀ v, redirect n = Some v → utf8_valid v = true) →
  (∀ v, redirect n = Some v → (N.of_nat (String.length v) ≤ 65536)%N → is_renamed f (details_of p n) = Ok (Some v)) ∧
  (redirect n = None → is_renamed f (details_of p n) = Ok None) ∧
  (∀ v, is_renamed f (details_of p n) = Ok (Some v) → redirect n = Some v) ∧
  (is_renamed f (details_of p n) = Ok None → redirect n = None).
Proof.
  intros f p n Hwf Hn Hp Hv. unfold is_renamed. cbn [d_path details_of]. rewrite !cstring_utf8, !(lgetxattr_dom f p n) by done.
  unfold redirect, XREDIRECT in *. destruct (n_xattr n !! "trusted.overlay.redirect") as [v|].
  - pose proof (lossy_valid v (Hv v eq_refl)) as Ev. split_and!; [|done| |].
    + intros v' [= <-] Hl. destruct (N.leb_spec (N.of_nat (String.length v)) 256); [by rewrite Ev|].
      destruct (N.leb_spec (N.of_nat (String.length v)) 65536); [by rewrite Ev|lia].
    + intros v'. destruct (N.leb (N.of_nat (String.length v)) 256); [congruence|].
      destruct (N.leb (N.of_nat (String.length v)) 65536); congruence.
    + destruct (N.leb (N.of_nat (String.length v)) 256); [congruence|].
      destruct (N.leb (N.of_nat (String.length v)) 65536); congruence.
  - split_and!; try done.
Qed.
Print Assumptions C23_redirect_read_whole_partial.
Definition long_value : string := of_bytes (replicate 300 "a"%char).
Definition long_fs : fs := {[ [] := Node KDir 493 0 0 1 {[ "trusted.overlay.redirect" := long_value ]} ]}.
Example C23_nonvacuous : match from_path long_fs [] with
  | Ok (Some d) => is_renamed long_fs d = Ok (Some long_value) | _ => False end.
Proof. vm_compute. done. Qed.

(** ** C24: whiteouts are recognised exactly *)
Definition C24_full : Prop := ∀ f p n, wf_tree f → f !! p = Some n → is_removed f (details_of p n) = whiteout n.

(** False: device numbers are only compared modulo 2^16, so a device node with a large minor number
    (0:256 for example) counts as a deletion. *)
Definition chr_fs : fs := list_to_map [ ([], dir0); (["dev"], mk (KChr 1048576) 420 0) ].
Theorem C24_refuted : ¬ C24_full.
Proof.
  intros H. assert (wf_tree chr_fs) as Hw by (apply wf_treeb_spec; vm_compute; reflexivity).
  specialize (H chr_fs ["dev"] (mk (KChr 1048576) 420 0) Hw eq_refl). vm_compute in H. discriminate.
Qed.
Print Assumptions C24_refuted.

(** Exact for device numbers below 2^16 and for whiteout attributes of at most one byte that sit
    on regular files (the only ones the kernel writes). *)
Theorem C24_whiteouts_exact_partial : ∀ f p n, wf_tree f → f !! p = Some n → utf8_path p →
  (∀ r, n_kind n = KChr r → (r < 65536)%N) →
  (∀ v, n_xattr n !! "trusted.overlay.whiteout" = Some v → is_kfile (n_kind n) = true ∧ String.length v ≤ 1) →
  is_removed f (details_of p n) = whiteout n.
Proof.
  intros f p n Hwf Hn Hp Hr Hv. unfold is_removed, whiteout. rewrite d_is_chr_of.
  cbn [d_path details_of d_rdev]. rewrite cstring_utf8, (lgetxattr_dom f p n) by done. unfold XWHITEOUT.
  assert (∀ k, n_kind n = k → is_kfile k = false →
     n_xattr n !! "trusted.overlay.whiteout" = None) as Hno.
  { intros k Hk Hf. destruct (n_xattr n !! "trusted.overlay.whiteout") as [v|] eqn:E; [|done].
    destruct (Hv v eq_refl) as [H _]. rewrite Hk in H. congruence. }
  destruct (n_kind n) as [content| |t|r|r| |] eqn:Ek.
  - destruct (n_xattr n !! "trusted.overlay.whiteout") as [v|] eqn:E.
    + destruct (Hv v eq_refl) as [_ Hl]. rewrite bool_decide_eq_true_2 by (by eexists).
      destruct (N.leb_spec (N.of_nat (String.length v)) 1); [done|lia].
    + by rewrite bool_decide_eq_false_2 by (by intros [? ?]).
  - by rewrite (Hno KDir).
  - by rewrite (Hno (KLink t)).
  - unfold st_rdev. rewrite Ek. specialize (Hr r eq_refl). destruct (N.eqb_spec r 0) as [->|Hr0]; [done|].
    apply andb_false_iff. rewrite !N.eqb_neq.
    destruct (decide (N.land r 255 = 0%N)) as [E1|?]; [|by right]. left. intros E2.
    assert (N.land r 65535 = 0%N) as E by (by apply land_split).
    change 65535%N with (N.ones 16) in E. rewrite N.land_ones, N.mod_small in E by done. done.
  - by rewrite (Hno (KBlk r)).
  - by rewrite (Hno KFifo).
  - by rewrite (Hno KSock).
Qed.
Print Assumptions C24_whiteouts_exact_partial.
Example C24_nonvacuous :
  is_removed chr_fs (details_of ["dev"] (mk (KChr 0) 0 0)) = true ∧
  is_removed chr_fs (details_of ["dev"] (mk (KChr 257) 0 0)) = false ∧
  is_removed chr_fs (details_of ["dev"] (mk (KChr 256) 0 0)) = false.
Proof. vm_compute. done. Qed.

(** ** C26: find_mount_point *)
Lemma walk_prefix_found (f : fs) (n : nat) (cur a b q : path) (m : node) : wf_tree f → is_Some (f !! cur) →
  walk n f true cur (a ++ b) = Ok q → f !! q = Some m →
  ∃ q', walk n f false cur a = Ok q' ∧ is_Some (f !! q').
Proof.
  intros Hwf. revert cur a. induction n as [n IHn] using lt_wf_ind. intros cur a. revert cur.
  induction a as [|c a IH]; intros cur Hcur Hw Hq.
  { rewrite walk_nil. by exists cur. }
  simpl in Hw. rewrite walk_cons in Hw. rewrite walk_cons.
  destruct (String.eqb c "" || String.eqb c "."); [by apply IH|].
  destruct (String.eqb c "..").
  { apply IH; [|done|done]. destruct Hcur as [k Hk]. destruct (path_snoc_case cur) as [->|(r & x & ->)]; [by exists k|].
    rewrite removelast_snoc. destruct (wf_parent f Hwf r x k Hk) as (d & Hd & _). by exists d. }
  destruct (f !! cur) as [d|] eqn:Ed; [|done]. destruct (is_kdir (n_kind d)); [|done].
  destruct (f !! (cur ++ [c])) as [nd|] eqn:End.
  - assert (∀ Q : Prop, (is_klink (n_kind nd) = false → walk n f true (cur ++ [c]) (a ++ b) = Ok q → Q) →
       (∀ t, n_kind nd = KLink t → Q) → Q) as Hcase.
    { intros Q H1 H2. destruct (n_kind nd) eqn:Ek; try (by apply H1). by eapply H2. }
    apply Hcase.
    + intros Hnl Hw'. destruct (IH (cur ++ [c])) as (q' & Hq' & Hs); [by exists nd|done|done|].
      exists q'. split; [|done]. destruct (n_kind nd); done.
    + intros t Ek. rewrite Ek in *. destruct a as [|c' a].
      { exists (cur ++ [c]). split; [done|by exists nd]. }
      simpl in Hw. destruct n as [|n]; [done|].
      destruct (IHn n ltac:(lia) (if is_abs t then [] else cur) (split_on "/" t ++ c' :: a)) as (q' & Hq' & Hs).
      * destruct (is_abs t); [|by exists d]. destruct (wf_root f Hwf) as (r0 & Hr & _). by exists r0.
      * by rewrite <-app_assoc.
      * done.
      * by exists q'.
  - destruct (a ++ b) as [|c' r] eqn:Eab; [|done]. injection Hw as <-. congruence.
Qed.

Lemma stat_prefix (f : fs) (a b : path) (m : node) : wf_tree f → stat f (a ++ b) = Ok m → ∃ k, lstat f a = Ok k.
Proof.
  intros Hwf. unfold stat, lstat, lookup_f, lookup_l. destruct (walk max_links f true [] (a ++ b)) as [q|] eqn:E; [|done].
  cbn [rbind]. destruct (f !! q) as [k|] eqn:Ek; [|done]. intros _.
  destruct (walk_prefix_found f max_links [] a b q k Hwf) as (q' & -> & [k' Hk']); [|done|done|].
  - destruct (wf_root f Hwf) as (r & Hr & _). by exists r.
  - cbn [rbind]. rewrite Hk'. by exists k'.
Qed.

(** Device of a path as lstat reports it. *)
Definition dev_at (f : fs) (p : path) : option N := match lstat f p with Ok n => Some (n_dev n) | Err _ => None end.

Lemma fmp_existing_spec (f : fs) (rp : path) : wf_tree f → ∃ rq rr, fmp_existing f rp = Ok rq ∧ rp = rr ++ rq ∧
  exists_ f (rev rq) = true ∧ ∀ r1 r2, r2 ≠ [] → rr = r1 ++ r2 → exists_ f (rev (r2 ++ rq)) = false.
Proof.
  intros Hwf. induction rp as [|c rp IH]; cbn [fmp_existing].
  - assert (exists_ f (rev []) = true) as E.
    { unfold exists_, stat, lookup_f. cbn [rev]. rewrite walk_nil. cbn [rbind]. by destruct (wf_root f Hwf) as (r & -> & _). }
    rewrite E. exists [], []. split; [done|]. split; [done|]. split; [done|]. intros r1 r2 Hne E2.
    symmetry in E2. by apply app_nil in E2 as [_ ->].
  - destruct (exists_ f (rev (c :: rp))) eqn:E.
    + exists (c :: rp), []. split; [done|]. split; [done|]. split; [done|]. intros r1 r2 Hne E2.
      symmetry in E2. by apply app_nil in E2 as [_ ->].
    + destruct IH as (rq & rr & H1 & -> & H3 & H4). exists rq, (c :: rr). split; [done|]. split; [done|]. split; [done|].
      intros r1 r2 Hne E2. destruct r1 as [|x r1]; simpl in E2; [by subst r2|]. injection E2 as -> ->. by apply (H4 r1 r2).
Qed.

Lemma fmp_climb_spec (f : fs) (d : N) (rp : path) : (∀ a b, rev rp = a ++ b → is_Some (dev_at f a)) →
  dev_at f (rev rp) = Some d →
  ∃ m, fmp_climb f d rp = Ok m ∧ under m (rev rp) = true ∧
    (∀ a, under m a = true → under a (rev rp) = true → dev_at f a = Some d) ∧
    (m = [] ∨ dev_at f (removelast m) ≠ Some d).
Proof.
  induction rp as [|c rp IH]; intros Hex Hd; cbn [fmp_climb].
  { exists []. split; [done|]. split; [done|]. split; [|by left]. intros a _ Ha. simpl in *. apply under_spec in Ha as [r E].
    symmetry in E. by apply app_nil in E as [-> _]. }
  assert (∀ a b, rev rp = a ++ b → is_Some (dev_at f a)) as Hex'.
  { intros a b E. apply (Hex a (b ++ [c])). simpl. by rewrite E, app_assoc. }
  destruct (Hex' (rev rp) [] ltac:(by rewrite app_nil_r)) as [d' Hd']. unfold dev_at in Hd'.
  destruct (lstat f (rev rp)) as [pn|] eqn:Ep; [|done]. simpl. injection Hd' as <-.
  destruct (N.eqb_spec (n_dev pn) d) as [E|Hne].
  - destruct IH as (m & H1 & H2 & H3 & H4); [done|by unfold dev_at; rewrite Ep, E|].
    exists m. split; [done|]. split; [eapply under_trans; [done|]; apply under_app|]. split; [|done].
    intros a Ha1 Ha2. destruct (decide (a = rev rp ++ [c])) as [->|Hna]; [done|]. apply H3; [done|].
    apply under_spec in Ha2 as [r E2]. destruct (path_snoc_case r) as [->|(r' & x & ->)].
    { rewrite app_nil_r in E2. by destruct Hna. }
    rewrite app_assoc in E2. apply app_inj_tail in E2 as [-> _]. apply under_app.
  - exists (rev rp ++ [c]). split; [done|]. split; [apply under_refl|]. split.
    + intros a Ha1 Ha2. assert (a = rev rp ++ [c]) as -> by (by apply under_antisym). done.
    + right. rewrite removelast_snoc. unfold dev_at. rewrite Ep. congruence.
Qed.

(** Always returns; the result [m] is at or above the closest existing ancestor [q] of the path,
    everything from [m] to [q] is on [q]'s device, and the parent of [m] is not. *)
Theorem C26_find_mount_point : ∀ f p, wf_tree f → ∃ m q r d,
  find_mount_point f p = Ok m ∧ p = q ++ r ∧ exists_ f q = true ∧
  (∀ r1 r2, r1 ≠ [] → r = r1 ++ r2 → exists_ f (q ++ r1) = false) ∧
  under m q = true ∧ dev_at f q = Some d ∧
  (∀ a, under m a = true → under a q = true → dev_at f a = Some d) ∧
  (m = [] ∨ dev_at f (removelast m) ≠ Some d).
Proof.
  intros f p Hwf. unfold find_mount_point.
  destruct (fmp_existing_spec f (rev p) Hwf) as (rq & rr & -> & Ep & Hex & Hnex). simpl.
  assert (∃ k, stat f (rev rq) = Ok k) as [k Hk].
  { unfold exists_ in Hex. destruct (stat f (rev rq)) as [k|]; [by exists k|done]. }
  assert (∀ a b, rev rq = a ++ b → is_Some (dev_at f a)) as Hall.
  { intros a b E. rewrite E in Hk. destruct (stat_prefix f a b k Hwf Hk) as [k' Hk']. unfold dev_at. rewrite Hk'. by eexists. }
  destruct (Hall (rev rq) [] ltac:(by rewrite app_nil_r)) as [d Hd].
  pose proof Hd as Hd0. unfold dev_at in Hd. destruct (lstat f (rev rq)) as [n|] eqn:En; [|done]. injection Hd as Hd.
  simpl. rewrite Hd. destruct (fmp_climb_spec f d rq Hall Hd0) as (m & H1 & H2 & H3 & H4).
  exists m, (rev rq), (rev rr), d. split; [done|]. split; [by rewrite <-rev_app_distr, <-Ep, rev_involutive|].
  split; [done|]. split; [|done]. intros r1 r2 Hne E. specialize (Hnex (rev r2) (rev r1)).
  rewrite rev_app_distr, rev_involutive in Hnex. apply Hnex.
  - intros E1. apply Hne. by rewrite <-(rev_involutive r1), E1.
  - by rewrite <-(rev_involutive rr), E, rev_app_distr.
Qed.
Print Assumptions C26_find_mount_point.
Definition dev_fs : fs := list_to_map
  [ ([], dir0); (["mnt"], dir0); (["mnt"; "disk"], Node KDir 493 0 0 2 ∅); (["mnt"; "disk"; "a"], Node KDir 493 0 0 2 ∅) ].
Example C26_nonvacuous : find_mount_point dev_fs ["mnt"; "disk"; "a"; "not"; "there"] = Ok ["mnt"; "disk"]
  ∧ find_mount_point dev_fs ["mnt"; "x"] = Ok [].
Proof. vm_compute. done. Qed.

(** ** C25: rename sources are resolved like the kernel does *)
(** No directory strictly above [s] is opaque (below an opaque directory the kernel uses no lower
    content at all). *)
Definition C25_full : Prop := ∀ f ub ms m s n, storage_ok f ub ms → m ∈ ms → staged_at f ub m s n →
  ¬ below_opaque f ub m s →
  (∀ s' n', staged_at f ub m s' n' → ∀ r, redirect n' = Some r → n_kind n' = KDir ∧ r ≠ "" ∧ (N.of_nat (String.length r) ≤ 4096)%N) →
  get_source f (upper_dir ub m) m s =
    Ok (if exists_ f (kernel_source f ub m s) then Some (kernel_source f ub m s) else None).

(** False: "mv a b; mv b/x b/y" leaves relative redirects on both directories; the program looks
    for the inner one below the new name of the outer one. *)
Definition nested_fs : fs := list_to_map
  [ ([], dir0); (["a"], dir0); (["a"; "x"], dir0); (["a"; "x"; "f"], file_ "1"); (["sbx"], dir0); (["sbx"; "up"], dir0);
    (["sbx"; "up"; "F4"], dir0); (["sbx"; "up"; "F4"; "a"], wh); (["sbx"; "up"; "F4"; "b"], rdir "a");
    (["sbx"; "up"; "F4"; "b"; "x"], wh); (["sbx"; "up"; "F4"; "b"; "y"], rdir "x") ].
Lemma nested_storage : storage_ok nested_fs demo_ub [[]].
Proof. apply storage_okb_spec. vm_compute. reflexivity. Qed.
Lemma nested_no_opaque s : ¬ below_opaque nested_fs demo_ub [] s.
Proof.
  intros (s1 & r & n1 & _ & _ & Hs & Ho).
  assert (on_staged nested_fs demo_ub [[]] (λ m s n, negb (opaque n)) = true) as Hc by (vm_compute; reflexivity).
  pose proof (on_staged_spec _ _ _ _ Hc [] s1 n1 ltac:(left) Hs) as H. cbv beta in H. by rewrite Ho in H.
Qed.
Theorem C25_refuted : ¬ C25_full.
Proof.
  intros H.
  pose proof (H nested_fs demo_ub [[]] [] ["b"; "y"] (rdir "x") nested_storage ltac:(left)) as H1. clear H.
  assert (staged_at nested_fs demo_ub [] ["b"; "y"] (rdir "x")) as Hs by (split; [discriminate|vm_compute; reflexivity]).
  specialize (H1 Hs (nested_no_opaque _)). clear Hs.
  assert (∀ s' n', staged_at nested_fs demo_ub [] s' n' → ∀ r, redirect n' = Some r →
     n_kind n' = KDir ∧ r ≠ "" ∧ (N.of_nat (String.length r) ≤ 4096)%N) as Hr.
  { intros s' n' Hs r Hr.
    assert (on_staged nested_fs demo_ub [[]] (λ m s n, match redirect n with
      | Some r => is_kdir (n_kind n) && negb (String.eqb r "") && (N.of_nat (String.length r) <=? 4096)%N | None => true end) = true) as Hc
      by (vm_compute; reflexivity).
    pose proof (on_staged_spec _ _ _ _ Hc [] s' n' ltac:(left) Hs) as H. cbv beta in H. rewrite Hr in H.
    rewrite !andb_true_iff, negb_true_iff in H. destruct H as [[Ha Hb] Hd].
    split; [by apply is_kdir_true|]. split; [by apply String.eqb_neq in Hb|]. by apply N.leb_le. }
  specialize (H1 Hr). clear Hr. vm_compute in H1. discriminate.
Qed.
Print Assumptions C25_refuted.
(** The user sees an error for a valid rename. *)
Example C25_user_visible : match changes demo_env nested_fs demo_ub true with
  | Ok l => existsb (λ c, match c_op c with OError RedirectPathNotFound => bool_decide (c_dest c = ["b"; "y"]) | _ => false end) l
  | Err _ => false end = true.
Proof. vm_compute. reflexivity. Qed.

Lemma origin_app (f : fs) (root u l a b : path) : (∀ a1 a2, a = a1 ++ a2 → a1 ≠ [] → is_Some (f !! (u ++ a1))) →
  origin f root u l (a ++ b) = origin f root (u ++ a) (origin f root u l a) b.
Proof.
  revert u l. induction a as [|c a IH]; intros u l H; simpl; [by rewrite app_nil_r|].
  destruct (H [c] a eq_refl ltac:(done)) as [n Hn]. rewrite Hn. rewrite IH.
  - by rewrite <-app_assoc.
  - intros a1 a2 -> Ha1. rewrite <-app_assoc. apply (H (c :: a1) a2); done.
Qed.
Lemma origin_plain (f : fs) (root u l b : path) :
  (∀ a1 a2 n, b = a1 ++ a2 → a1 ≠ [] → f !! (u ++ a1) = Some n → redirect n = None) →
  origin f root u l b = l ++ b.
Proof.
  revert u l. induction b as [|c b IH]; intros u l H; simpl; [by rewrite app_nil_r|].
  destruct (f !! (u ++ [c])) as [n|] eqn:En; [|done].
  rewrite (H [c] b n eq_refl ltac:(done) En). rewrite IH; [by rewrite <-app_assoc|].
  intros a1 a2 n' -> Ha1. rewrite <-app_assoc. apply (H (c :: a1) a2); done.
Qed.

(** What is assumed about the redirects above and at [s]: a relative redirect never sits below
    another redirect, and the mount point of a directory with an absolute redirect is [m]. *)
Definition redirects_simple (f : fs) (ub m s : path) : Prop :=
  ∀ s1 s2 n r, s = s1 ++ s2 → staged_at f ub m s1 n → redirect n = Some r →
    ((N.of_nat (String.length r) ≤ 65536)%N ∧ utf8_valid r = true) ∧
    (is_abs r = true → find_mount_point f (m ++ s1) = Ok m) ∧
    (is_abs r = false → ∀ a b n0, s1 = a ++ b → b ≠ [] → staged_at f ub m a n0 → redirect n0 = None).

Theorem C25_source_like_kernel_partial : ∀ f ub ms m s n, storage_ok f ub ms → m ∈ ms → staged_at f ub m s n →
  redirects_simple f ub m s →
  get_source f (upper_dir ub m) m s =
    Ok (if exists_ f (kernel_source f ub m s) then Some (kernel_source f ub m s) else None).
Proof.
  intros f ub ms m s n Hst Hm Hs Hsimple. pose proof (so_wf _ _ _ Hst) as Hwf. unfold get_source.
  set (U := upper_dir ub m) in *.
  assert (∀ a b, s = a ++ b → ∃ k, f !! (U ++ a) = Some k) as Hup.
  { intros a b E. destruct Hs as [_ Hn]. fold U in Hn. rewrite E in Hn. destruct b as [|c b].
    { rewrite app_nil_r in Hn. by exists n. }
    rewrite app_assoc in Hn. destruct (wf_prefix f (U ++ a) (c :: b) n Hwf Hn ltac:(done)) as (d & Hd & _). by exists d. }
  enough (∀ rsub acc, s = rev rsub ++ acc →
    (∀ a1 a2 k, acc = a1 ++ a2 → a1 ≠ [] → f !! (U ++ rev rsub ++ a1) = Some k → redirect k = None) →
    source_loop f U m rsub acc = Ok (if_exists f (origin f m U m s))) as H.
  { rewrite (H (rev s) []); [done| |].
    - by rewrite rev_involutive, app_nil_r.
    - intros a1 a2 k E Hne. symmetry in E. by apply app_nil in E as [-> _]. }
  induction rsub as [|c rs IH]; intros acc Es Hacc.
  - simpl in *. subst acc. destruct (Hup [] s eq_refl) as [k Hk]. rewrite app_nil_r in *.
    rewrite (from_path_dom f U k Hwf Hk). rewrite origin_plain; [done|].
    intros a1 a2 k' E Hne Hk'. by apply (Hacc a1 a2 k').
  - cbn [source_loop]. simpl rev in *.
    destruct (Hup (rev rs ++ [c]) acc Es) as [k Hk].
    rewrite (from_path_dom f _ k Hwf Hk).
    assert (staged_at f ub m (rev rs ++ [c]) k) as Hsk by (split; [by destruct (rev rs)|done]).
    destruct (C23_redirect_read_whole_partial f _ k Hwf Hk) as (R1 & R2 & _ & _).
    { apply (so_utf8 _ _ _ Hst _ k Hk). unfold U, upper_dir. rewrite <-app_assoc. apply under_app. }
    { intros v Hv. by destruct (Hsimple (rev rs ++ [c]) acc k v Es Hsk Hv) as ([_ ?] & _ & _). }
    assert (origin f m U m s = origin f m U m (rev rs ++ [c]) ++ acc) as Eo.
    { rewrite Es, origin_app.
      - apply origin_plain. intros a1 a2 k' E Hne Hk'. apply (Hacc a1 a2 k' E Hne). by rewrite app_assoc.
      - intros a1 a2 E _. apply (Hup a1 (a2 ++ acc)). by rewrite Es, E, app_assoc. }
    assert (origin f m U m (rev rs ++ [c]) =
      match redirect k with
      | Some r => if is_abs r then m ++ comps r else origin f m U m (rev rs) ++ comps r
      | None => origin f m U m (rev rs) ++ [c] end) as Eo2.
    { rewrite origin_app; [|intros a1 a2 E _; apply (Hup a1 (a2 ++ c :: acc)); rewrite Es, E, <-!app_assoc; done].
      cbn [origin]. rewrite <-app_assoc, Hk. by destruct (redirect k) as [r|]; [destruct (is_abs r)|]. }
    destruct (redirect k) as [r|] eqn:Er.
    + destruct (Hsimple (rev rs ++ [c]) acc k r Es Hsk Er) as ([Hl _] & Habs & Hrel).
      rewrite (R1 r eq_refl Hl). destruct (is_abs r) eqn:Ea.
      * rewrite (Habs eq_refl). rewrite Eo, Eo2, <-app_assoc. done.
      * assert (origin f m U m (rev rs) = m ++ rev rs) as Epl.
        { apply origin_plain. intros a1 a2 n0 E Hne Hn0.
          apply (Hrel eq_refl a1 (a2 ++ [c]) n0); [by rewrite E, app_assoc|by destruct a2|done]. }
        rewrite Eo, Eo2, Epl, <-!app_assoc. done.
    + rewrite (R2 eq_refl). rewrite IH; [done| |].
      * by rewrite Es, <-app_assoc.
      * intros a1 a2 k' E Hne Hk'. destruct a1 as [|x a1]; [done|]. simpl in E. injection E as <- E.
        destruct a1 as [|y a1]; [congruence|]. apply (Hacc (y :: a1) a2 k' E ltac:(done)). by rewrite <-app_assoc.
Qed.
Print Assumptions C25_source_like_kernel_partial.

(** An absolute redirect and a relative one, each with files below. *)
Definition moved_fs : fs := list_to_map
  [ ([], dir0); (["p"], dir0); (["p"; "d"], dir0); (["p"; "d"; "f"], file_ "1"); (["q"], dir0); (["sbx"], dir0); (["sbx"; "up"], dir0);
    (["sbx"; "up"; "F4"], dir0); (["sbx"; "up"; "F4"; "p"], dir0); (["sbx"; "up"; "F4"; "p"; "d"], wh);
    (["sbx"; "up"; "F4"; "q"], dir0); (["sbx"; "up"; "F4"; "q"; "e"], rdir "/p/d"); (["sbx"; "up"; "F4"; "q"; "e"; "f"], file_ "2") ].
Example C25_nonvacuous : get_source moved_fs (upper_dir demo_ub []) [] ["q"; "e"; "f"] = Ok (Some ["p"; "d"; "f"])
  ∧ kernel_source moved_fs demo_ub [] ["q"; "e"; "f"] = ["p"; "d"; "f"]
  ∧ redirects_simple moved_fs demo_ub [] ["q"; "e"; "f"].
Proof.
  split; [vm_compute; reflexivity|]. split; [vm_compute; reflexivity|].
  intros s1 s2 n r E [Hne Hn] Hr.
  destruct s1 as [|x1 [|x2 [|x3 s1]]]; [done|..]; simpl in E.
  - injection E as <- _. vm_compute in Hn. injection Hn as <-. vm_compute in Hr. discriminate.
  - injection E as <- <- _. vm_compute in Hn. injection Hn as <-. vm_compute in Hr. injection Hr as <-.
    split; [split; vm_compute; [discriminate|reflexivity]|]. split; [intros _; vm_compute; reflexivity|]. intros Ha. vm_compute in Ha. discriminate.
  - injection E as <- <- <- E. symmetry in E. apply app_nil in E as [-> _]. vm_compute in Hn. injection Hn as <-.
    vm_compute in Hr. discriminate.
Qed.

(** ** C32: recursive removal is confined *)
(** Only paths at or below [p] on [p]'s device disappear, nothing else changes, in every
    intermediate state; and if it reports success nothing is left at or below [p]. *)
Definition confined (f : fs) (p : path) (dev : N) (s : fs) : Prop :=
  ∀ q, s !! q = f !! q ∨ (s !! q = None ∧ under p q = true ∧ ∃ k, f !! q = Some k ∧ n_dev k = dev).

(** [p] may be any path that [stat] says is a directory, so also a symlink to one. *)
Definition C32_full : Prop := ∀ ord f p n k, (∀ l, ord l ≡ₚ l) → wf_tree f → lstat f p = Ok k → stat f p = Ok n → n_kind n = KDir →
  Forall (confined f p (n_dev k)) (states (rmdir_rec ord p f)).

(** False: given a symlink to a directory it empties the directory the link points to. *)
Definition symlinked_fs : fs := list_to_map
  [ ([], dir0); (["d"], dir0); (["d"; "x"], file_ "precious"); (["l"], mk (KLink "d") 511 0) ].
Theorem C32_refuted : ¬ C32_full.
Proof.
  intros H. assert (wf_tree symlinked_fs) as Hw by (apply wf_treeb_spec; vm_compute; reflexivity).
  assert (lstat symlinked_fs ["l"] = Ok (mk (KLink "d") 511 0)) as Hl by (vm_compute; reflexivity).
  assert (stat symlinked_fs ["l"] = Ok dir0) as Hs by (vm_compute; reflexivity).
  pose proof (H (λ l, l) symlinked_fs ["l"] dir0 (mk (KLink "d") 511 0) ltac:(done) Hw Hl Hs eq_refl) as H1. clear H Hw Hl Hs.
  rewrite Forall_forall in H1.
  assert (delete ["d"; "x"] symlinked_fs ∈ states (rmdir_rec (λ l, l) ["l"] symlinked_fs)) as Hin.
  { vm_compute. left. }
  specialize (H1 _ Hin ["d"; "x"]). clear Hin. destruct H1 as [E|(_ & E & _)]; vm_compute in E; discriminate.
Qed.
Print Assumptions C32_refuted.

(** Everything that disappeared from [f] was on device [dev]. *)
Definition gone_on (f : fs) (dev : N) (s : fs) : Prop := ∀ q k, f !! q = Some k → s !! q = None → n_dev k = dev.

Lemma rmdir_gone_on (fuel : nat) (ord : list path → list path) (p : path) (f : fs) (n : node) :
  (∀ l, ord l ≡ₚ l) → wf_tree f → f !! p = Some n → n_kind n = KDir →
  let o := rmdir_recursive fuel ord p f in
  Forall (λ s, shrinks p f s ∧ gone_on f (n_dev n) s) (o_trace o) ∧ shrinks p f (o_fs o) ∧ gone_on f (n_dev n) (o_fs o).
Proof.
  intros Hord. revert p f n. induction fuel as [|fuel IH]; intros p f n Hwf Hn Hk.
  { simpl. split; [constructor|]. split; [by apply shrinks_refl|]. intros q k H1 H2. congruence. }
  cbv zeta. set (I := λ s, shrinks p f s ∧ gone_on f (n_dev n) s).
  assert (dirpath f p) as Hdp by (by eapply wf_dirpath).
  assert (nolink f p) as Hnl by (by apply dirpath_nolink).
  assert (∀ m, f !! p = Some m → is_klink (n_kind m) = false) as Hl.
  { intros m Hm. assert (m = n) as -> by congruence. by rewrite Hk. }
  assert (I f) as HI0 by (split; [by apply shrinks_refl|]; intros q k H1 H2; congruence).
  assert (∀ s q k, I s → s !! q = Some k → under p q = true → n_dev k = n_dev n → wf_tree (delete q s) → I (delete q s)) as HIdel.
  { intros s q k [H1 H2] Hq Hu Hd Hw. split; [by apply shrinks_delete|]. intros q' k' Hf Hs.
    destruct (decide (q' = q)) as [->|Hne].
    - apply (shrinks_some p f s) in Hq; [|done]. congruence.
    - rewrite lookup_delete_ne in Hs by done. by apply (H2 q' k'). }
  enough (triple I (λ s, s = f) (rmdir_recursive (S fuel) ord p) (λ _ _, True)) as H.
  { destruct (H f eq_refl) as (H1 & [H2 H3] & _). done. }
  cbn [rmdir_recursive].
  eapply triple_bind with (Q := λ root s, s = f ∧ n_dev root = n_dev n).
  { apply triple_get; [intros s ->; done|]. intros s a -> E. rewrite (lstat_dom f p n) in E by done. by injection E as <-. }
  intros root. eapply triple_bind with (Q := λ names s, s = f ∧ n_dev root = n_dev n ∧ readdir f p = Ok names).
  { apply triple_get; [intros s [-> _]; done|]. intros s a [-> Hr] E. done. }
  intros names. eapply triple_bind with (Q := λ _ s, I s).
  - intros s0 (-> & Hroot & Hrd).
    assert (∀ x, x ∈ names → comp_ok x) as Hnames.
    { intros x Hx. apply (readdir_elem f p names x Hwf Hnl Hl Hrd) in Hx as [m Hm]. by eapply wf_comp. }
    enough (triple I I
      (for_ (ord ((λ x, p ++ [x]) <$> names)) (λ ep,
        st <-- get_ (λ f, lstat f ep) ;;
        if negb (N.eqb (n_dev st) (n_dev root)) then
          throw (EApp "entry is on a different device")
        else if is_kdir (n_kind st) then rmdir_recursive fuel ord ep
        else sys_unlink ep)) (λ _, I)) as H by (by apply H).
    apply triple_for. intros ep Hep. rewrite Hord in Hep.
    apply elem_of_list_fmap in Hep as (x & -> & Hx). specialize (Hnames x Hx).
    assert (under p (p ++ [x]) = true) as Hu by apply under_app.
    eapply triple_bind with (Q := λ st s, I s ∧ lstat s (p ++ [x]) = Ok st).
    { apply triple_get; [done|]. intros s a Hs E. done. }
    intros st. destruct (N.eqb_spec (n_dev st) (n_dev root)) as [Hdev|]; cbn [negb].
    2: { apply triple_throw. by intros s [Hs _]. }
    assert (∀ s, I s → nolink s (p ++ [x])) as Hnl'.
    { intros s [Hs _]. apply nolink_snoc; [by eapply shrinks_nolink| |done].
      intros k Hk'. eapply Hl. by eapply shrinks_some. }
    assert (∀ s, I s → lstat s (p ++ [x]) = Ok st → s !! (p ++ [x]) = Some st) as Hst.
    { intros s Hs E. unfold lstat in E. destruct (lookup_l_nolink s (p ++ [x]) (Hnl' s Hs)) as [E1|[er E1]]; rewrite E1 in E; [|done].
      cbn [rbind] in E. destruct (s !! (p ++ [x])); [congruence|done]. }
    destruct (is_kdir (n_kind st)) eqn:Ek.
    + intros s [Hs Est]. pose proof (Hst s Hs Est) as Hsx. apply is_kdir_true in Ek.
      destruct (IH (p ++ [x]) s st (proj1 (proj1 Hs)) Hsx Ek) as (H1 & H2 & H3).
      assert (∀ t, shrinks (p ++ [x]) s t → gone_on s (n_dev st) t → I t) as Ht.
      { intros t Ht1 Ht2. split; [by eapply shrinks_trans; [|apply Hs|]|]. intros q k Hf Hq.
        destruct (s !! q) as [k'|] eqn:Esq.
        - pose proof (shrinks_some p f s q k' (proj1 Hs) Esq) as E. assert (k' = k) as -> by congruence.
          rewrite (Ht2 q k Esq Hq). congruence.
        - by apply (proj2 Hs q k). }
      split; [|split].
      * eapply Forall_impl; [exact H1|]. intros t [Ht1 Ht2]. by apply Ht.
      * by apply Ht.
      * intros a _. by apply Ht.
    + intros s [Hs Est]. pose proof (Hst s Hs Est) as Hsx.
      destruct (unlink_cases s (p ++ [x]) (proj1 (proj1 Hs)) (Hnl' s Hs))
        as [[e ->]|(k & Hd & Hk' & Hkk & Hne & -> & Hwf')]; cbn [fail_ emit o_trace o_fs o_res].
      * split; [constructor|]. done.
      * assert (I (delete (p ++ [x]) s)) by (eapply HIdel; [done|exact Hsx|done|congruence|done]).
        split; [by constructor|]. done.
  - intros []. intros s Hs.
    destruct (rmdir_cases s p (proj1 (proj1 Hs)) (shrinks_nolink _ _ _ _ (proj1 Hs) Hnl))
      as [[e ->]|(k & Hd & Hk' & Hkk & Hne & Hb & -> & Hwf')]; cbn [fail_ emit o_trace o_fs o_res].
    + split; [constructor|]. done.
    + assert (I (delete p s)).
      { eapply HIdel; [done|exact Hk'|apply under_refl| |done].
        pose proof (shrinks_some p f s p k (proj1 Hs) Hk') as E. congruence. }
      split; [by constructor|]. done.
Qed.

Theorem C32_recursive_removal_confined_partial : ∀ ord f p n, (∀ l, ord l ≡ₚ l) → wf_tree f →
  f !! p = Some n → n_kind n = KDir →
  let o := rmdir_rec ord p f in
  Forall (confined f p (n_dev n)) (states o) ∧
  (is_ok (o_res o) = true → ∀ q, under p q = true → o_fs o !! q = None) ∧
  (* and it does succeed when everything below is on one device *)
  (p ≠ [] → one_device f p (n_dev n) → dev_of f (removelast p) = Some (n_dev n) → is_ok (o_res o) = true).
Proof.
  intros ord f p n Hord Hwf Hn Hk o.
  destruct (rmdir_gone_on (S (tree_depth f)) ord p f n Hord Hwf Hn Hk) as (H1 & H2 & H3).
  assert (nolink f p) as Hnl by (by eapply dirpath_nolink, wf_dirpath).
  assert (∀ m, f !! p = Some m → is_klink (n_kind m) = false) as Hl.
  { intros m Hm. assert (m = n) as -> by congruence. by rewrite Hk. }
  destruct (rmdir_rec_frame ord p f Hord Hwf Hnl Hl) as (_ & _ & Hgone).
  assert (∀ s, shrinks p f s → gone_on f (n_dev n) s → confined f p (n_dev n) s) as Hconf.
  { intros s [_ Hs] Hg q. destruct (Hs q) as [|[E Hu]]; [by left|]. destruct (f !! q) as [k|] eqn:Ek; [|by left].
    right. split; [done|]. split; [done|]. exists k. split; [done|]. by apply (Hg q). }
  split; [|split].
  - unfold states. apply Forall_app. split; [|apply Forall_singleton; by apply Hconf].
    eapply Forall_impl; [exact H1|]. intros s [Hs Hg]. by apply Hconf.
  - intros Hok. apply Hgone. unfold o in Hok. destruct (o_res (rmdir_rec ord p f)) as [[]|]; done.
  - intros Hp Hone Hdev. unfold o. rewrite (rmdir_rec_complete ord p f (n_dev n) n); try done.
    unfold parent_dev. unfold dev_of in Hdev. destruct (f !! removelast p) as [k|]; [|done]. by injection Hdev as ->.
Qed.
Print Assumptions C32_recursive_removal_confined_partial.
(** Symlinks found inside are removed, not followed; a mount point inside stops the removal. *)
Example C32_nonvacuous :
  let f := list_to_map [ ([], dir0); (["k"], dir0); (["k"; "x"], file_ "kept"); (["d"], dir0); (["d"; "l"], mk (KLink "/k") 511 0);
                         (["d"; "e"], dir0); (["d"; "e"; "y"], file_ "1") ] : fs in
  let g := <[ ["d"; "m"] := Node KDir 493 0 0 2 ∅ ]> f in
  is_ok (o_res (rmdir_rec (λ l, l) ["d"] f)) = true ∧ o_fs (rmdir_rec (λ l, l) ["d"] f) !! ["k"; "x"] = Some (file_ "kept") ∧
  is_ok (o_res (rmdir_rec (λ l, l) ["d"] g)) = false.
Proof. vm_compute. done. Qed.
