(** * Accepting everything: it succeeds and gives the merged view. *)
From Verif Require Export Success.

(** A host path deleted by the sandbox: it lies at or below a deleted or replaced object. *)
Definition deleted_on_host (f : fs) (ub : path) (ms : list path) (q : path) : Prop :=
  ∃ m s n, m ∈ ms ∧ staged_at f ub m s n ∧ removal_root f m s n ∧
    under (m ++ s) q = true ∧ is_Some (f !! q).

(** Sandboxes whose changes can all be accepted: only files, directories and symlinks were
    created or deleted, nothing is mounted below a deleted object, and no deleted object lies
    strictly below another deleted object. *)
Record acceptable (f : fs) (ub : path) (ms : list path) : Prop := {
  ac_staged : ∀ m s n, m ∈ ms → staged_at f ub m s n → whiteout n = true ∨ supported n = true;
  ac_deleted : ∀ q k, deleted_on_host f ub ms q → f !! q = Some k → supported k = true;
  ac_device : ∀ a x k d, deleted_on_host f ub ms (a ++ [x]) → f !! (a ++ [x]) = Some k →
    f !! a = Some d → n_dev d = n_dev k;
  ac_nested : no_nested f ub ms;
}.

Lemma removes_deleted f ub ms c q : lists f ub ms c → removes c q → deleted_on_host f ub ms q.
Proof.
  intros Hl Hr. destruct (remove_of f ub ms c q Hl Hr) as (m & s & n & k & ? & ? & ? & ? & ? & _).
  exists m, s, n. split_and!; done.
Qed.

Lemma ready_all f ub ms e all : sandbox_ok f ub ms → env_ok e → acceptable f ub ms →
  changes e f ub true = Ok all → ready f ub ms all.
Proof.
  intros Hok He Hac Hc.
  destruct (changes_complete f ub ms Hok e He) as (l & Hl & Hall). rewrite Hc in Hl. injection Hl as <-.
  split.
  - intros c. apply Hall.
  - by eapply (changes_nodup f ub ms Hok (ac_nested _ _ _ Hac) e true).
  - intros c c' q q' _ _ Hl' _ _. by apply Hall.
  - intros c c' _ Hl' _. by apply Hall.
  - intros c c' _ _ Hl' _ _. left. by apply Hall.
  - intros c er Hin E. apply Hall in Hin as (m & s & n & Hm & Hs & [(_ & q & k & _ & _ & ->)|[(_ & _ & ->)|(H1 & H2 & ->)]]); try done.
    destruct (ac_staged _ _ _ Hac m s n Hm Hs); congruence.
  - intros c q k Hin Hr Hk. eapply ac_deleted; [done| |done]. eapply removes_deleted; [|done]. by apply Hall.
  - intros c a x k d Hin Hr Hk Hd. eapply (ac_device _ _ _ Hac a x k d); try done.
    eapply removes_deleted; [|done]. by apply Hall.
Qed.

(** Every change is selected. *)
Definition selects_all (e : env) (f : fs) (ub : path) (pats : list string) : Prop :=
  ∀ all, changes e f ub true = Ok all → matching (e_glob e) (e_cwd e) pats all = all.

Lemma selects_all_root e f ub : (∀ s, e_glob e "/**" s = true) → selects_all e f ub ["/"].
Proof.
  intros Hg all _. unfold matching. cbn [fmap list_fmap]. 
  assert (norm_pattern all (e_cwd e) "/" = "/**") as -> by reflexivity.
  induction all as [|c all IH]; [done|].
  rewrite filter_cons_True; [by rewrite IH|]. simpl. by rewrite Hg.
Qed.

Theorem accept_all_succeeds e f ub ms dev pats : sandbox_ok f ub ms → acceptable f ub ms →
  env_ok e → fresh_uuids e f → one_device f ub dev → selects_all e f ub pats →
  is_ok (o_res (accept e ub true pats f)) = true.
Proof.
  intros Hok Hac He Hfu Hdev Hsel.
  destruct (changes_complete f ub ms Hok e He) as (all & Hc & _).
  pose proof (ready_all f ub ms e all Hok He Hac Hc) as Hrd.
  eapply (accept_succeeds f ub ms Hok e He Hfu (ac_nested _ _ _ Hac) dev Hdev all Hrd true pats).
  unfold selected. rewrite Hc. simpl. by rewrite Hsel.
Qed.
