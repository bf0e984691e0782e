(** * C48 and C49: whose credentials are used *)
From Verif Require Export Creds.

(** ** C48 *)

(** Running set-uid root: the caller is the real user; no SUDO_ variable has any influence. *)
Theorem C48_setuid_uses_real_ids : ∀ env c f u,
  euid c = 0%N → ruid c ≠ 0%N → resolve_uid_gid_home env c f = Ok u →
  ugh_uid u = ruid c ∧ ugh_gid u = rgid c ∧
  (∀ env', env' !! "HOME" = env !! "HOME" → resolve_uid_gid_home env' c f = Ok u).
Proof.
  intros env c f u He Hr H.
  assert (is_setuid c = true) as Hs.
  { unfold is_setuid. rewrite He. apply andb_true_iff. split; [|done]. apply negb_true_iff. by apply N.eqb_neq. }
  unfold resolve_uid_gid_home in *. rewrite Hs in H. cbn [rbind] in H.
  destruct (negb (is_abs _)) eqn:E1; [done|]. destruct (negb (exists_ _ _)) eqn:E2; [done|].
  injection H as <-. split; [done|]. split; [done|]. intros env' Henv. rewrite Hs. cbn [rbind].
  by rewrite Henv, E1, E2.
Qed.
Print Assumptions C48_setuid_uses_real_ids.

(** Every way a process may try to change its ids. *)
Inductive id_call :=
  | CSetuid (u : N) | CSetgid (g : N)
  | CSetresuid (r e s : option N) | CSetresgid (r e s : option N)
  | CSetgroups (gs : list N).
Definition id_call_run (k : id_call) (c : cred) : res cred :=
  match k with
  | CSetuid u => sys_setuid u c | CSetgid g => sys_setgid g c
  | CSetresuid r e s => sys_setresuid r e s c | CSetresgid r e s => sys_setresgid r e s c
  | CSetgroups gs => sys_setgroups gs c
  end.
(** A failing call changes nothing and the process goes on. *)
Definition id_calls (ks : list id_call) (c : cred) : cred :=
  foldl (λ c k, match id_call_run k c with Ok c' => c' | Err _ => c end) c ks.

Definition all_ids (c : cred) (uid gid : N) : Prop :=
  ruid c = uid ∧ euid c = uid ∧ suid c = uid ∧ rgid c = gid ∧ egid c = gid ∧ sgid c = gid.

Lemma one_of_same u v : one_of u [v; v; v] = true → u = v.
Proof. unfold one_of. simpl. rewrite !orb_true_iff, !N.eqb_eq. intuition done. Qed.
Lemma one_of_same2 u v : one_of u [v; v] = true → u = v.
Proof. unfold one_of. simpl. rewrite !orb_true_iff, !N.eqb_eq. intuition done. Qed.

Lemma id_call_stuck k c c' uid gid : uid ≠ 0%N → all_ids c uid gid → id_call_run k c = Ok c' →
  all_ids c' uid gid ∧ groups c' = groups c.
Proof.
  intros Hu (H1 & H2 & H3 & H4 & H5 & H6) H.
  assert (privileged c = false) as Hp by (unfold privileged; rewrite H2; by apply N.eqb_neq).
  destruct k as [u|g|r e s|r e s|gs]; simpl in H.
  - unfold sys_setuid in H. rewrite Hp, H1, H3 in H. destruct (one_of u _) eqn:E; [|done].
    apply one_of_same2 in E as ->. by injection H as <-.
  - unfold sys_setgid in H. rewrite Hp, H4, H6 in H. destruct (one_of g _) eqn:E; [|done].
    apply one_of_same2 in E as ->. by injection H as <-.
  - unfold sys_setresuid in H. rewrite Hp, H1, H2, H3 in H. cbv zeta in H.
    match goal with H : (if ?b then _ else _) = _ |- _ => destruct b eqn:E; [|done] end.
    injection H as <-. rewrite !andb_true_iff in E. destruct E as [[E1 E2] E3].
    destruct r as [r|]; [apply one_of_same in E1|]; (destruct e as [e|]; [apply one_of_same in E2|]);
      (destruct s as [s|]; [apply one_of_same in E3|]); subst; done.
  - unfold sys_setresgid in H. rewrite Hp, H4, H5, H6 in H. cbv zeta in H.
    match goal with H : (if ?b then _ else _) = _ |- _ => destruct b eqn:E; [|done] end.
    injection H as <-. rewrite !andb_true_iff in E. destruct E as [[E1 E2] E3].
    destruct r as [r|]; [apply one_of_same in E1|]; (destruct e as [e|]; [apply one_of_same in E2|]);
      (destruct s as [s|]; [apply one_of_same in E3|]); subst; done.
  - unfold sys_setgroups in H. by rewrite Hp in H.
Qed.

(** After the drop every id is the user's, and no sequence of further calls changes that. *)
Theorem C48_drop_is_final : ∀ c uid gid, euid c = 0%N →
  ∃ c', drop_privileges uid gid c = Ok c' ∧ all_ids c' uid gid ∧
    (uid ≠ 0%N → ∀ ks, all_ids (id_calls ks c') uid gid).
Proof.
  intros [r e s rg eg sg gs] uid gid He. simpl in He. subst e.
  eexists. split; [reflexivity|]. split; [done|]. intros Hu ks.
  set (c0 := set_uids _ _ _ _). assert (all_ids c0 uid gid) as H0 by done. clearbody c0.
  revert c0 H0. induction ks as [|k ks IH]; intros c0 H0; [done|].
  unfold id_calls. simpl. apply IH. destruct (id_call_run k c0) as [c1|] eqn:E; [|done].
  by eapply id_call_stuck.
Qed.
Print Assumptions C48_drop_is_final.

(** The two together, as in main.rs:46-47 and exec.rs:76-79: the command started by a set-uid
    [sandbox] runs as the real user, whatever the environment says. *)
Theorem C48_setuid_command_runs_as_caller : ∀ env c f u,
  euid c = 0%N → ruid c ≠ 0%N → resolve_uid_gid_home env c f = Ok u →
  ∃ c', drop_privileges (ugh_uid u) (ugh_gid u) c = Ok c' ∧ ∀ ks, all_ids (id_calls ks c') (ruid c) (rgid c).
Proof.
  intros env c f u He Hr H. destruct (C48_setuid_uses_real_ids env c f u He Hr H) as (-> & -> & _).
  destruct (C48_drop_is_final c (ruid c) (rgid c) He) as (c' & H1 & _ & H2). exists c'. auto.
Qed.
Print Assumptions C48_setuid_command_runs_as_caller.

Definition home_fs : fs := list_to_map
  [ ([], Node KDir 493 0 0 1 ∅); (["home"], Node KDir 493 0 0 1 ∅); (["home"; "u"], Node KDir 448 1000 1000 1 ∅) ].
Definition setuid_cred : cred := Cred 1000 0 0 1000 1000 1000 [1000%N; 27%N].
Example C48_nonvacuous :
  resolve_uid_gid_home {[ "HOME" := "/home/u"; "SUDO_UID" := "0"; "SUDO_GID" := "0" ]} setuid_cred home_fs
    = Ok (Ugh 1000 1000 "/home/u") ∧
  (* under sudo the variables are used *)
  resolve_uid_gid_home {[ "HOME" := "/home/u"; "SUDO_UID" := "1001"; "SUDO_GID" := "1002" ]} (Cred 0 0 0 0 0 0 [0%N]) home_fs
    = Ok (Ugh 1001 1002 "/home/u").
Proof. vm_compute. done. Qed.

(** The stronger reading, that the command has no other group than the caller's, is false: the
    supplementary groups are never reset, so under sudo the command keeps root's groups. *)
Definition C48_groups : Prop := ∀ c uid gid (callers_groups : list N), euid c = 0%N → uid ≠ 0%N →
  ∃ c', drop_privileges uid gid c = Ok c' ∧ ∀ g, g ∈ groups c' → g = gid ∨ g ∈ callers_groups.
Theorem C48_groups_refuted : ¬ C48_groups.
Proof.
  intros H. destruct (H (Cred 0 0 0 0 0 0 [0%N]) 1000%N 1000%N [1000%N] eq_refl ltac:(done)) as (c' & Hc & Hg).
  vm_compute in Hc. injection Hc as <-. destruct (Hg 0%N) as [?|?%elem_of_list_singleton]; [left|done|done].
Qed.
Print Assumptions C48_groups_refuted.

(** ** C49 *)

(** A process of the user: all ids are the user's, with the user's supplementary groups. *)
Definition user_cred (uid gid : N) (gs : list N) : cred := Cred uid uid uid gid gid gid gs.

Definition C49_full : Prop := ∀ f p uid gid gs want c,
  euid c = 0%N → suid c = 0%N →
  (can_access f p uid gid want c).2 = Ok tt → eaccess f (user_cred uid gid gs) p want = Ok tt.

(** False under sudo: the check keeps root's supplementary groups. *)
Definition secret_fs : fs := list_to_map
  [ ([], Node KDir 493 0 0 1 ∅); (["secret"], Node (KFile "x") 416 0 0 1 ∅) ].   (* root:root 0640 *)
Theorem C49_refuted : ¬ C49_full.
Proof.
  intros H. specialize (H secret_fs ["secret"] 1000%N 1000%N [] 4%N (Cred 0 0 0 0 0 0 [0%N]) eq_refl eq_refl).
  vm_compute in H. discriminate (H eq_refl).
Qed.
Print Assumptions C49_refuted.

(** Permission checks depend only on the effective ids and the groups. *)
Lemma may_same c c' n w : euid c = euid c' → egid c = egid c' → groups c = groups c' → may c n w = may c' n w.
Proof. unfold may, privileged. by intros -> -> ->. Qed.
Lemma pwalk_same f c c' : euid c = euid c' → egid c = egid c' → groups c = groups c' →
  ∀ n cur todo, pwalk n f c cur todo = pwalk n f c' cur todo.
Proof.
  intros H1 H2 H3. induction n as [|n IHn]; intros cur todo.
  all: revert cur; induction todo as [|x rest IH]; intros cur; [done|]; cbn [pwalk];
    cbn [pwalk] in IH; destruct (f !! cur) as [d|]; [|done]; destruct (negb (is_kdir _)); [done|];
    rewrite (may_same c c') by done; destruct (negb (may c' d 1)); [done|]; destruct (String.eqb x ".."); [apply IH|];
    cbv zeta; destruct (f !! (cur ++ [x])) as [nd|]; [|done]; destruct (n_kind nd); try apply IH.
  - done.
  - apply IHn.
Qed.
Lemma eaccess_same f c c' p w : euid c = euid c' → egid c = egid c' → groups c = groups c' →
  eaccess f c p w = eaccess f c' p w.
Proof.
  intros H1 H2 H3. unfold eaccess. rewrite (pwalk_same f c c') by done.
  destruct (pwalk _ _ _ _ _); [|done]. cbn [rbind]. destruct (f !! a); [|done]. by rewrite (may_same c c').
Qed.

Lemma setegid_ok g c : privileged c = true → sys_setegid g c = Ok (set_gids c (rgid c) g (sgid c)).
Proof. intros H. unfold sys_setegid, sys_setresgid. by rewrite H. Qed.
Lemma seteuid_ok u c : privileged c = true ∨ u = suid c → sys_seteuid u c = Ok (set_uids c (ruid c) u (suid c)).
Proof.
  intros H. unfold sys_seteuid, sys_setresuid. cbn [default].
  assert (privileged c || one_of u [ruid c; euid c; suid c] = true) as ->; [|done].
  destruct H as [-> | ->]; [done|]. unfold one_of. simpl. by rewrite N.eqb_refl, !orb_true_r.
Qed.

(** With the caller's own supplementary groups (as when running set-uid), the check says exactly
    what the kernel says to a process of the user, and the process gets its own ids back. *)
Theorem C49_checks_use_callers_rights_partial : ∀ f p uid gid want c,
  euid c = 0%N → suid c = 0%N →
  can_access f p uid gid want c = (c, eaccess f (user_cred uid gid (groups c)) p want).
Proof.
  intros f p uid gid want [r e s rg eg sg gs] He Hs. simpl in He, Hs. subst e s.
  unfold can_access. rewrite setegid_ok by done. rewrite seteuid_ok by (by left).
  cbv zeta. rewrite seteuid_ok by (by right). rewrite setegid_ok by done.
  unfold set_uids, set_gids. simpl. f_equal; try by apply eaccess_same.
Qed.
Print Assumptions C49_checks_use_callers_rights_partial.

Example C49_nonvacuous :
  can_access secret_fs ["secret"] 1000 1000 4 (Cred 1000 0 0 1000 1000 1000 [1000%N])
    = (Cred 1000 0 0 1000 1000 1000 [1000%N], Err EACCES) ∧
  can_access home_fs ["home"; "u"] 1000 1000 7 setuid_cred = (setuid_cred, Ok tt) ∧
  can_access home_fs ["home"; "u"] 1001 1001 4 setuid_cred = (setuid_cred, Err EACCES).
Proof. vm_compute. done. Qed.

(** Creating directories: accepted only if the user could write the nearest existing ancestor. *)
Theorem C49_mkdir_checked_partial : ∀ f p uid gid c,
  euid c = 0%N → suid c = 0%N → (can_mkdir f p uid gid c).2 = Ok tt →
  ∃ a, under a p = true ∧ a ≠ p ∧ exists_ f a = true ∧
    (∀ b, under a b = true → under b p = true → b ≠ p → a ≠ b → exists_ f b = false) ∧
    eaccess f (user_cred uid gid (groups c)) a 2 = Ok tt.
Proof.
  intros f p uid gid c He Hs H. unfold can_mkdir in H.
  destruct (nearest_existing f (ancestors_of (length p) p)) as [a|] eqn:E; [|done].
  rewrite C49_checks_use_callers_rights_partial in H by done. simpl in H. exists a.
  assert (∀ n q, length q = n → nearest_existing f (ancestors_of n q) = Some a →
    under a q = true ∧ a ≠ q ∧ exists_ f a = true ∧
    (∀ b, under a b = true → under b q = true → b ≠ q → a ≠ b → exists_ f b = false)) as Hgen.
  { clear. induction n as [|n IH]; intros q Hl Hq; [done|].
    destruct (path_snoc_case q) as [->|(q' & x & ->)]; [done|].
    simpl in Hq. unfold parent in Hq. rewrite removelast_snoc in Hq.
    assert (q' ++ [x] ≠ []) as Hne by (by destruct q').
    destruct (q' ++ [x]) as [|y l] eqn:Eq; [done|]. rewrite <-Eq in *. clear Eq.
    rewrite app_length in Hl. simpl in Hl. assert (length q' = n) as Hl' by lia.
    cbn [nearest_existing] in Hq. destruct (exists_ f q') eqn:Ex.
    - injection Hq as <-. split; [apply under_app|]. split; [intros HH; apply (f_equal length) in HH; rewrite app_length in HH; simpl in HH; lia|].
      split; [done|]. intros b H1 H2 H3 H4. apply under_snoc in H2 as [->|H2]; [done|].
      by destruct H4; apply under_antisym.
    - destruct (IH q' Hl' Hq) as (A & B & C & D). split; [by apply under_snoc; right|]. split.
      + intros HH. apply under_spec in A as [s Hs]. apply (f_equal length) in Hs, HH.
        rewrite app_length in Hs, HH. simpl in HH. lia.
      + split; [done|]. intros b H1 H2 H3 H4. apply under_snoc in H2 as [->|H2]; [done|].
        destruct (decide (b = q')) as [->|Hb]; [done|]. by apply D. }
  destruct (Hgen _ p eq_refl E) as (A & B & C & D). done.
Qed.
Print Assumptions C49_mkdir_checked_partial.

(** But write permission alone is asked for, while creating an entry also needs search permission:
    a directory the user may write but not search is accepted. *)
Definition C49_mkdir_full : Prop := ∀ f p x uid gid c,
  euid c = 0%N → suid c = 0%N → exists_ f p = true →
  (can_mkdir f (p ++ [x]) uid gid c).2 = Ok tt → eaccess f (user_cred uid gid (groups c)) p 3 = Ok tt.
Definition wonly_fs : fs := list_to_map
  [ ([], Node KDir 493 0 0 1 ∅); (["d"], Node KDir 128 1000 1000 1 ∅) ].   (* mode 0200 *)
Theorem C49_mkdir_refuted : ¬ C49_mkdir_full.
Proof.
  intros H. specialize (H wonly_fs ["d"] "x" 1000%N 1000%N setuid_cred eq_refl eq_refl).
  vm_compute in H. discriminate (H eq_refl eq_refl).
Qed.
Print Assumptions C49_mkdir_refuted.
