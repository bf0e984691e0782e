(** * C98, C99: whatever is listed can be accepted, and nothing is listed as deleted twice. *)
From Verif Require Export Props_General RenamedCheck.

(** ** Specification *)
(** A sandbox as overlayfs leaves it, with files, directories, links and whiteouts only, on a host with one filesystem of files,
    directories and links; the storage is not inside the directories that are sandboxed. *)
Record plain_sandbox (f : fs) (ub : path) (ms : list path) : Prop := {
  ps_storage : storage_ok f ub ms;
  ps_format : ∀ m s n, m ∈ ms → staged_at f ub m s n → entry_format n ∧ (whiteout n = true ∨ supported n = true);
  ps_host : ∀ q k, under ub q = false → f !! q = Some k → supported k = true;
  ps_apart : ∀ m s n, m ∈ ms → staged_at f ub m s n → under ub (m ++ s) = false ∧ under (m ++ s) ub = false;
  ps_device : ∃ dev, ∀ q k, f !! q = Some k → n_dev k = dev;
}.
Definition no_error (all : list change) : Prop := ∀ c er, c ∈ all → c_op c ≠ OError er.

(** C98: if everything is listed, nothing of it as an error, then accepting all of it succeeds. *)
Definition C98_full : Prop := ∀ (e : env) (f : fs) (ub : path) (ms : list path) (pats : list string) (all : list change),
  plain_sandbox f ub ms → env_ok e → fresh_uuids e f → changes e f ub true = Ok all → no_error all → selects_all e f ub pats →
  is_ok (o_res (accept e ub true pats f)) = true.

(** C99: of two entries of the listing that say that a host path is removed, the paths differ. *)
Definition C99_full : Prop := ∀ (e : env) (f : fs) (ub : path) (ms : list path) (inc : bool) (all : list change),
  plain_sandbox f ub ms → env_ok e → changes e f ub inc = Ok all → no_error all →
  ∀ i j c c' q, all !! i = Some c → all !! j = Some c' → removes c q → removes c' q → i = j.

(** ** What does not hold: [rm -r d; mkdir d; touch d/a] where the old d/a was a directory. *)
Definition dup_fs : fs := list_to_map
  [ ([], dir0); (["d"], dir0); (["d"; "a"], dir0); (["d"; "a"; "f"], file_ "old"); (["home"], dir0);
    (["st"], dir0); (["st"; "F4"], dir0);
    (["st"; "F4"; "d"], Node KDir 493 0 0 1 {[ "trusted.overlay.opaque" := "y" ]});
    (["st"; "F4"; "d"; "a"], file_ "new") ].
Lemma dup_storage : storage_ok dup_fs ["st"] [[]].
Proof. apply storage_okb_spec. vm_compute. reflexivity. Qed.
Lemma dup_plain : plain_sandbox dup_fs ["st"] [[]].
Proof.
  split.
  - exact dup_storage.
  - intros m s n Hm Hs.
    assert (on_staged dup_fs ["st"] [[]] (λ m s n, entry_formatb n && (whiteout n || supported n)) = true) as Hc by (vm_compute; reflexivity).
    pose proof (on_staged_spec _ _ _ _ Hc m s n Hm Hs) as H. cbv beta in H. apply andb_true_iff in H as [H1 H2].
    split; [by apply entry_formatb_spec|by apply orb_true_iff].
  - intros q k Hu Hk. assert (on_fs dup_fs (λ q n, under ["st"] q || supported n) = true) as Hc by (vm_compute; reflexivity).
    apply (on_fs_spec _ _ Hc) in Hk. rewrite Hu in Hk. exact Hk.
  - intros m s n Hm Hs.
    assert (on_staged dup_fs ["st"] [[]] (λ m s n, negb (under ["st"] (m ++ s)) && negb (under (m ++ s) ["st"])) = true) as Hc by (vm_compute; reflexivity).
    pose proof (on_staged_spec _ _ _ _ Hc m s n Hm Hs) as H. cbv beta in H. apply andb_true_iff in H as [H1 H2].
    by apply negb_true_iff in H1, H2.
  - exists 1%N. intros q k Hk. assert (on_fs dup_fs (λ _ n, N.eqb (n_dev n) 1) = true) as Hc by (vm_compute; reflexivity).
    apply (on_fs_spec _ _ Hc) in Hk. by apply N.eqb_eq.
Qed.
Definition is_error (c : change) : bool := match c_op c with OError _ => true | _ => false end.
Lemma no_error_spec (all : list change) : existsb is_error all = false → no_error all.
Proof.
  intros H c er Hc Ho. assert (existsb is_error all = true); [|congruence]. apply existsb_exists. exists c.
  split; [by apply elem_of_list_In|]. unfold is_error. by rewrite Ho.
Qed.
Definition dup_list : list change := match changes demo_env dup_fs ["st"] true with Ok l => l | Err _ => [] end.
Lemma dup_changes : changes demo_env dup_fs ["st"] true = Ok dup_list.
Proof. vm_compute. reflexivity. Qed.
Lemma dup_no_error : no_error dup_list.
Proof. apply no_error_spec. vm_compute. reflexivity. Qed.
Theorem C98_refuted : ¬ C98_full.
Proof.
  intros H.
  assert (fresh_uuids demo_env dup_fs) as Hf by (apply (fresh_suffixb_spec _ _ "uuid"); [reflexivity|vm_compute; reflexivity]).
  assert (selects_all demo_env dup_fs ["st"] ["/"]) as Hsel by (apply selects_all_root; reflexivity).
  pose proof (H demo_env dup_fs ["st"] [[]] ["/"] dup_list dup_plain demo_env_ok Hf dup_changes dup_no_error Hsel) as Hok.
  vm_compute in Hok. discriminate Hok.
Qed.
Print Assumptions C98_refuted.
(** What that accept leaves behind: the host has lost /d/a/f and has not got the new /d/a. *)
Theorem C98_left_half_done : 
  let o := accept demo_env ["st"] true ["/"] dup_fs in
  o_res o = Err ENOENT ∧ o_fs o !! ["d"; "a"; "f"] = None ∧ o_fs o !! ["d"; "a"] = Some dir0.
Proof. vm_compute. repeat split. Qed.
Theorem C99_refuted : ¬ C99_full.
Proof.
  intros H.
  assert (∃ i j c c', i ≠ j ∧ dup_list !! i = Some c ∧ dup_list !! j = Some c' ∧ removes c ["d"; "a"; "f"] ∧ removes c' ["d"; "a"; "f"]) as (i & j & c & c' & Hne & Hi & Hj & Hr & Hr').
  { exists 1, 5. eexists _, _. split; [discriminate|]. split; [vm_compute; reflexivity|]. split; [vm_compute; reflexivity|].
    split; (split; [reflexivity|]; eexists; split; reflexivity). }
  exact (Hne (H demo_env dup_fs ["st"] [[]] true dup_list dup_plain demo_env_ok dup_changes dup_no_error i j c c' _ Hi Hj Hr Hr')).
Qed.
Print Assumptions C99_refuted.

(** ** What holds *)
(** Without renamed directories, host links to directories that were deleted, and deleted or replaced objects inside one another. *)
Theorem C98_acceptable_partial : ∀ (e : env) (f : fs) (ub : path) (ms : list path) (dev : N) (pats : list string),
  sandbox_ok f ub ms → acceptable f ub ms → env_ok e → fresh_uuids e f → one_device f ub dev → selects_all e f ub pats →
  is_ok (o_res (accept e ub true pats f)) = true.
Proof. exact accept_all_succeeds. Qed.
Print Assumptions C98_acceptable_partial.
Theorem C99_once_partial : ∀ (e : env) (f : fs) (ub : path) (ms : list path) (inc : bool) (all : list change),
  sandbox_ok f ub ms → no_nested f ub ms → env_ok e → changes e f ub inc = Ok all →
  NoDup all ∧ ∀ i j c c' q, all !! i = Some c → all !! j = Some c' → removes c q → removes c' q → i = j.
Proof.
  intros e f ub ms inc all Hok Hnn He Hc. pose proof (changes_nodup f ub ms Hok Hnn e inc all He Hc) as Hnd. split; [exact Hnd|].
  intros i j c c' q Hi Hj Hr Hr'. apply (NoDup_lookup all i j c Hnd Hi). rewrite Hj. f_equal. symmetry.
  apply (removes_unique f ub ms Hok Hnn c c' q); [| |exact Hr|exact Hr'].
  - by eapply changes_sound; [| |exact Hc|eapply elem_of_list_lookup_2].
  - by eapply changes_sound; [| |exact Hc|eapply elem_of_list_lookup_2].
Qed.
Print Assumptions C99_once_partial.
Example C98_nonvacuous : sandbox_ok demo_fs demo_ub [[]] ∧ acceptable demo_fs demo_ub [[]] ∧ env_ok demo_env ∧ fresh_uuids demo_env demo_fs ∧
  one_device demo_fs demo_ub 1 ∧ selects_all demo_env demo_fs demo_ub ["/"] ∧
  match changes demo_env demo_fs demo_ub true with Ok l => length l | Err _ => 0 end = 14.
Proof.
  split; [exact demo_ok|]. split; [exact demo_acceptable|]. split; [exact demo_env_ok|]. split; [exact demo_fresh|].
  split; [exact demo_device|]. split; [exact demo_selects|exact demo_changes].
Qed.
Example C99_nonvacuous : sandbox_ok demo_fs demo_ub [[]] ∧ no_nested demo_fs demo_ub [[]] ∧
  match changes demo_env demo_fs demo_ub true with Ok l => existsb (λ c, match c_op c with ORemove => true | _ => false end) l | Err _ => false end = true.
Proof. split; [exact demo_ok|]. split; [exact (ac_nested _ _ _ demo_acceptable)|]. vm_compute. reflexivity. Qed.
