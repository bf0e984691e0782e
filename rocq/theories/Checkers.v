(** * Executable checks of the hypotheses, used to show that concrete states meet them. *)
From Verif Require Export AcceptAll.

Definition on_fs (f : fs) (g : path → node → bool) : bool := forallb (λ kn, g kn.1 kn.2) (map_to_list f).
Lemma on_fs_spec f g : on_fs f g = true → ∀ k n, f !! k = Some n → g k n = true.
Proof.
  unfold on_fs. rewrite forallb_forall. intros H k n Hk. apply (H (k, n)).
  apply elem_of_list_In. by apply elem_of_map_to_list.
Qed.

Definition dirb (f : fs) (p : path) : bool :=
  match f !! p with Some n => is_kdir (n_kind n) | None => false end.
Lemma dirb_spec f p : dirb f p = true → ∃ d, f !! p = Some d ∧ n_kind d = KDir.
Proof.
  unfold dirb. destruct (f !! p) as [n|]; [|done]. intros H. exists n. split; [done|].
  by destruct (n_kind n).
Qed.

Definition wf_treeb (f : fs) : bool :=
  dirb f [] && on_fs f (λ k n,
    (match last k with None => true | Some c => comp_okb c && dirb f (removelast k) end)
    && (n_perm n <? 4096)%N).
Lemma wf_treeb_spec f : wf_treeb f = true → wf_tree f.
Proof.
  unfold wf_treeb. rewrite andb_true_iff. intros [H1 H2].
  pose proof (on_fs_spec f _ H2) as H. clear H2. split.
  - by apply dirb_spec.
  - intros p c n Hn. apply H in Hn. rewrite last_snoc, removelast_snoc, !andb_true_iff in Hn.
    destruct Hn as [[_ Hn] _]. by apply dirb_spec.
  - intros p c n Hn. apply H in Hn. rewrite last_snoc, removelast_snoc, !andb_true_iff in Hn.
    destruct Hn as [[Hn _] _]. by apply comp_okb_spec.
  - intros p n Hn. apply H in Hn. rewrite andb_true_iff in Hn. destruct Hn as [_ Hn]. by apply N.ltb_lt.
Qed.

Definition storage_okb (f : fs) (ub : path) (ms : list path) : bool :=
  wf_treeb f && dirb f ub && forallb (λ m, dirb f m && utf8_valid (path_str m)) ms &&
  on_fs f (λ k n, match path_strip ub k with
                  | Some [c] => existsb (λ m, String.eqb c (b32_encode (path_str m))) ms
                  | _ => true end) &&
  on_fs f (λ k n, negb (under ub k) || forallb utf8_valid k).
Lemma storage_okb_spec f ub ms : storage_okb f ub ms = true → storage_ok f ub ms.
Proof.
  unfold storage_okb. rewrite !andb_true_iff. intros [[[[H1 H2] H3] H4] H5]. split.
  - by apply wf_treeb_spec.
  - by apply dirb_spec.
  - intros m Hm. rewrite forallb_forall in H3. apply elem_of_list_In, H3 in Hm.
    rewrite andb_true_iff in Hm. destruct Hm as [Hm1 Hm2]. split; [|done]. by apply dirb_spec.
  - intros c n Hn. apply (on_fs_spec _ _ H4) in Hn. rewrite path_strip_app in Hn.
    apply existsb_exists in Hn as (m & Hm & Hc). exists m. split; [by apply elem_of_list_In|].
    by apply String.eqb_eq.
  - intros p n Hn Hu. apply (on_fs_spec _ _ H5) in Hn. rewrite Hu in Hn. cbn [negb orb] in Hn.
    apply Forall_forall. intros x Hx. rewrite forallb_forall in Hn. by apply Hn, elem_of_list_In.
Qed.

Definition entry_okb (n : node) : bool :=
  (match n_kind n with KChr r => N.eqb r 0 || negb (N.eqb (N.land r 65535) 0) | _ => true end) &&
  (match n_xattr n !! "trusted.overlay.whiteout" with
   | Some v => is_kfile (n_kind n) && (String.length v <=? 1) | None => true end) &&
  (match n_xattr n !! "trusted.overlay.opaque" with
   | Some v => is_kdir (n_kind n) && String.eqb v "y" | None => true end) &&
  (match n_xattr n !! "trusted.overlay.redirect" with Some _ => false | None => true end).
Lemma entry_okb_spec n : entry_okb n = true → entry_ok n.
Proof.
  unfold entry_okb. rewrite !andb_true_iff. intros [[[H1 H2] H3] H4]. split.
  - intros r Hr. rewrite Hr in H1. apply orb_true_iff in H1 as [H1|H1].
    + left. by apply N.eqb_eq.
    + right. apply negb_true_iff, N.eqb_neq in H1. done.
  - intros v Hv. rewrite Hv in H2. apply andb_true_iff in H2 as [H2 H2']. split; [done|].
    by apply Nat.leb_le.
  - intros v Hv. rewrite Hv in H3. apply andb_true_iff in H3 as [H3 H3']. split.
    + by destruct (n_kind n).
    + by apply String.eqb_eq.
  - by destruct (n_xattr n !! "trusted.overlay.redirect").
Qed.

(** The non-empty prefixes of [s] strictly above it. *)
Definition below_opaqueb (f : fs) (ub m s : path) : bool :=
  existsb (λ i, match f !! (upper_dir ub m ++ take i s) with Some n1 => opaque n1 | None => false end)
    (seq 1 (length s - 1)).
Lemma below_opaqueb_spec f ub m s : below_opaqueb f ub m s = true → below_opaque f ub m s.
Proof.
  unfold below_opaqueb. intros H. apply existsb_exists in H as (i & Hi & H).
  apply in_seq in Hi. destruct (f !! _) as [n1|] eqn:E; [|done].
  exists (take i s), (drop i s), n1. split; [by rewrite take_drop|].
  split; [intros E'; apply (f_equal length) in E'; rewrite drop_length in E'; simpl in E'; lia|].
  split; [|done]. split; [|done]. intros E'. apply (f_equal length) in E'.
  rewrite take_length in E'. simpl in E'. lia.
Qed.

Definition link_targets_dirb (f : fs) (p : path) : bool :=
  match stat f p with Ok n => is_kdir (n_kind n) | Err _ => false end.
Definition link_targets_fileb (f : fs) (p : path) : bool :=
  match stat f p with Ok n => negb (is_kdir (n_kind n)) | Err _ => false end.

Definition host_okb (f : fs) (ub : path) (ms : list path) (m s : path) (n : node) : bool :=
  let p := m ++ s in
  forallb (λ m', negb (under m' p) || under m' m) ms &&
  negb (under ub p) &&
  (negb (hides n) || negb (under p ub)) &&
  forallb (λ m', negb (under p m') || negb (hides n)) ms &&
  (match f !! p with
   | None => true
   | Some k =>
       (negb (is_kdir (n_kind n)) || opaque n || is_kdir (n_kind k) || below_opaqueb f ub m s) &&
       (match n_kind k with
        | KLink _ => negb (is_kdir (n_kind n)) && (negb (whiteout n) || link_targets_fileb f p)
                     && negb (link_targets_dirb f p)
        | _ => true
        end)
   end).
Lemma host_okb_spec f ub ms m s n : m ∈ ms → host_okb f ub ms m s n = true → host_ok f ub ms m s n.
Proof.
  intros Hm. unfold host_okb. rewrite !andb_true_iff. intros [[[[H1 H2] H3] H4] H5].
  rewrite forallb_forall in H1, H4. split.
  - split; [done|]. split; [apply under_app|]. intros m' Hm' Hu. apply elem_of_list_In, H1 in Hm'.
    rewrite Hu in Hm'. done.
  - by apply negb_true_iff.
  - intros Hh. rewrite Hh in H3. by apply negb_true_iff.
  - intros m' Hm' Hu. apply elem_of_list_In, H4 in Hm'. rewrite Hu in Hm'. by apply negb_true_iff.
  - intros k Hn Ho Hk. rewrite Hk in H5. apply andb_true_iff in H5 as [H5 _]. rewrite Hn, Ho in H5.
    simpl in H5. apply orb_true_iff in H5 as [H5|H5].
    + left. by destruct (n_kind k).
    + right. by apply below_opaqueb_spec.
  - intros t k Hn Hk E. rewrite Hk, E in H5. rewrite !andb_true_iff in H5. destruct H5 as [_ [[H5 _] _]].
    by rewrite Hn in H5.
  - intros t k Hw Hk E. rewrite Hk, E in H5. rewrite !andb_true_iff in H5. destruct H5 as [_ [[_ H5] _]].
    rewrite Hw in H5. simpl in H5. unfold link_targets_fileb in H5. unfold link_to_file.
    destruct (stat f (m ++ s)) as [x|]; [|done]. exists x. split; [done|]. by destruct (n_kind x).
  - intros t k Hk E (x & Hx & Hxk). rewrite Hk, E in H5. rewrite !andb_true_iff in H5. destruct H5 as [_ [_ H5]].
    unfold link_targets_dirb in H5. by rewrite Hx, Hxk in H5.
Qed.

(** Every staged entry satisfies [g]. *)
Definition on_staged (f : fs) (ub : path) (ms : list path) (g : path → path → node → bool) : bool :=
  forallb (λ m, on_fs f (λ k n, match path_strip (upper_dir ub m) k with
                                | Some (c :: r) => g m (c :: r) n | _ => true end)) ms.
Lemma on_staged_spec f ub ms g : on_staged f ub ms g = true →
  ∀ m s n, m ∈ ms → staged_at f ub m s n → g m s n = true.
Proof.
  unfold on_staged. rewrite forallb_forall. intros H m s n Hm [Hs Hn]. apply elem_of_list_In, H in Hm.
  apply (on_fs_spec _ _ Hm) in Hn. rewrite path_strip_app in Hn. by destruct s.
Qed.

Definition sandbox_okb (f : fs) (ub : path) (ms : list path) : bool :=
  storage_okb f ub ms && on_staged f ub ms (λ m s n, entry_okb n && host_okb f ub ms m s n).
Lemma sandbox_okb_spec f ub ms : sandbox_okb f ub ms = true → sandbox_ok f ub ms.
Proof.
  unfold sandbox_okb. rewrite andb_true_iff. intros [H1 H2]. pose proof (on_staged_spec _ _ _ _ H2) as H.
  split.
  - by apply storage_okb_spec.
  - intros m s n Hm Hs. specialize (H m s n Hm Hs). apply andb_true_iff in H as [H _]. by apply entry_okb_spec.
  - intros m s n Hm Hs. specialize (H m s n Hm Hs). apply andb_true_iff in H as [_ H]. by apply host_okb_spec.
Qed.

Definition removal_rootb (f : fs) (m s : path) (n : node) : bool :=
  match f !! (m ++ s) with
  | None => false
  | Some k => opaque n || whiteout n || (negb (is_kdir (n_kind n)) && is_kdir (n_kind k))
  end.
Lemma removal_rootb_spec f m s n : removal_root f m s n → removal_rootb f m s n = true.
Proof.
  intros (k & Hk & H). unfold removal_rootb. rewrite Hk.
  destruct H as [->|[->|[-> ->]]]; by rewrite ?orb_true_r.
Qed.

Definition one_deviceb (f : fs) (p : path) (dev : N) : bool :=
  on_fs f (λ k n, negb (under p k) || N.eqb (n_dev n) dev).
Lemma one_deviceb_spec f p dev : one_deviceb f p dev = true → one_device f p dev.
Proof.
  intros H q n Hu Hn. apply (on_fs_spec _ _ H) in Hn. rewrite Hu in Hn. by apply N.eqb_eq.
Qed.

Definition acceptableb (f : fs) (ub : path) (ms : list path) : bool :=
  on_staged f ub ms (λ m s n, whiteout n || supported n) &&
  on_staged f ub ms (λ m s n, negb (removal_rootb f m s n) ||
    on_fs f (λ q k, negb (under (m ++ s) q) || supported k && 
      (match f !! removelast q with Some d => N.eqb (n_dev d) (n_dev k) | None => true end))) &&
  on_staged f ub ms (λ m s n, negb (removal_rootb f m s n) ||
    on_staged f ub ms (λ m' s' n', negb (removal_rootb f m' s' n') || negb (under (m ++ s) (m' ++ s'))
      || bool_decide (m ++ s = m' ++ s'))).
Lemma acceptableb_spec f ub ms : acceptableb f ub ms = true → acceptable f ub ms.
Proof.
  unfold acceptableb. rewrite !andb_true_iff. intros [[H1 H2] H3].
  pose proof (on_staged_spec _ _ _ _ H1) as H1'. pose proof (on_staged_spec _ _ _ _ H2) as H2'.
  pose proof (on_staged_spec _ _ _ _ H3) as H3'. clear H1 H2 H3.
  assert (∀ q k, deleted_on_host f ub ms q → f !! q = Some k → supported k = true ∧
     (match f !! removelast q with Some d => N.eqb (n_dev d) (n_dev k) | None => true end) = true) as Hd.
  { intros q k (m & s & n & Hm & Hs & Hr & Hu & _) Hk. pose proof (H2' m s n Hm Hs) as H. cbv beta in H.
    rewrite (removal_rootb_spec _ _ _ _ Hr) in H. simpl in H. apply (on_fs_spec _ _ H) in Hk.
    rewrite Hu in Hk. simpl in Hk. by apply andb_true_iff in Hk. }
  split.
  - intros m s n Hm Hs. apply orb_true_iff. by apply (H1' m s n).
  - intros q k Hq Hk. by apply Hd in Hk as [? _].
  - intros a x k d Hq Hk Hd'. apply Hd in Hk as [_ Hk]; [|done]. rewrite removelast_snoc, Hd' in Hk.
    by apply N.eqb_eq.
  - intros m s n m' s' n' Hm Hm' Hs Hs' Hr Hr' Hu. specialize (H3' m s n Hm Hs). cbv beta in H3'.
    rewrite (removal_rootb_spec _ _ _ _ Hr) in H3'. simpl in H3'.
    pose proof (on_staged_spec _ _ _ _ H3' m' s' n' Hm' Hs') as H. cbv beta in H.
    rewrite (removal_rootb_spec _ _ _ _ Hr'), Hu in H. simpl in H. by apply bool_decide_eq_true in H.
Qed.

Definition fresh_suffixb (f : fs) (u : string) : bool :=
  negb (String.eqb u "") && negb (contains "/" u) &&
  on_fs f (λ k n, match last k with Some c => negb (ends_with ("." +:+ u) c) | None => true end).
Lemma fresh_suffixb_spec e f u : (∀ i, e_uuid e 3 i = u) → fresh_suffixb f u = true → fresh_uuids e f.
Proof.
  intros Hu. unfold fresh_suffixb. rewrite !andb_true_iff. intros [[H1 H2] H3]. split.
  - intros i. rewrite Hu. by apply negb_true_iff, String.eqb_neq in H1.
  - intros i. rewrite Hu. by apply negb_true_iff.
  - intros i p c [n Hn]. rewrite Hu. apply (on_fs_spec _ _ H3) in Hn. rewrite last_snoc in Hn.
    by apply negb_true_iff.
Qed.

(** ** A concrete environment and sandbox *)
Definition demo_env : env := Env (λ p s, String.eqb p "/**" || String.eqb p s) (λ l, l) (λ _ _, "uuid") ["home"] 18.
Lemma demo_env_ok : env_ok demo_env.
Proof. intros l. done. Qed.

Definition mk (k : kind) (perm uid : N) : node := Node k perm uid uid 1 ∅.
Definition dir0 : node := mk KDir 493 0.
Definition opaque_dir : node := Node KDir 493 0 0 1 {[ "trusted.overlay.opaque" := "y" ]}.
Definition wh : node := mk (KChr 0) 0 0.
Definition file_ (c : string) : node := mk (KFile c) 420 1000.

(** Host: a file changed, a file deleted, a directory replaced by a file, a directory deleted and
    recreated, new directories, files and symlinks created; a symlink and a file left alone. *)
Definition demo_fs : fs := list_to_map
  [ ([], dir0); (["etc"], dir0); (["etc"; "conf"], file_ "old"); (["etc"; "gone"], file_ "x");
    (["etc"; "kept"], file_ "kept"); (["home"], dir0); (["home"; "d"], dir0);
    (["home"; "d"; "x"], file_ "1"); (["home"; "d"; "y"], dir0); (["home"; "r"], dir0);
    (["home"; "r"; "old"], file_ "2"); (["lnk"], mk (KLink "etc/conf") 511 0);
    (["sbx"], dir0); (["sbx"; "up"], dir0); (["sbx"; "up"; "F4"], dir0);
    (["sbx"; "up"; "F4"; "etc"], dir0); (["sbx"; "up"; "F4"; "etc"; "conf"], mk (KFile "new") 2541 7);
    (["sbx"; "up"; "F4"; "etc"; "gone"], wh); (["sbx"; "up"; "F4"; "home"], dir0);
    (["sbx"; "up"; "F4"; "home"; "d"], file_ "now a file");
    (["sbx"; "up"; "F4"; "home"; "r"], opaque_dir);
    (["sbx"; "up"; "F4"; "home"; "r"; "new"], file_ "3");
    (["sbx"; "up"; "F4"; "opt"], mk KDir 448 5);
    (["sbx"; "up"; "F4"; "opt"; "l"], mk (KLink "/nowhere") 511 5) ].
Definition demo_ub : path := ["sbx"; "up"].

Lemma demo_ok : sandbox_ok demo_fs demo_ub [[]].
Proof. apply sandbox_okb_spec. vm_compute. reflexivity. Qed.
Lemma demo_acceptable : acceptable demo_fs demo_ub [[]].
Proof. apply acceptableb_spec. vm_compute. reflexivity. Qed.
Lemma demo_device : one_device demo_fs demo_ub 1.
Proof. apply one_deviceb_spec. vm_compute. reflexivity. Qed.
Lemma demo_fresh : fresh_uuids demo_env demo_fs.
Proof. apply (fresh_suffixb_spec _ _ "uuid"); [done|]. vm_compute. reflexivity. Qed.
Lemma demo_selects : selects_all demo_env demo_fs demo_ub ["/"].
Proof. apply selects_all_root. done. Qed.
Example demo_accept : is_ok (o_res (accept demo_env demo_ub true ["/"] demo_fs)) = true.
Proof. vm_compute. reflexivity. Qed.
Example demo_changes : match changes demo_env demo_fs demo_ub true with Ok l => length l | Err _ => 0 end = 14.
Proof. vm_compute. reflexivity. Qed.

(** A legal file name that is not valid UTF-8. *)
Definition latin1 : string := of_bytes [ascii_of_nat 99; ascii_of_nat 233].
