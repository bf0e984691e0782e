(** * C43, C45: stopping and deleting *)
From Coq Require Import DecimalString DecimalN.
From Verif Require Export Props_Names.

(** ** Rules for the machine's computations: [I] holds in every state on the way, [Q] in the end if
    the result is a value. *)
Definition striple {A : Type} (I P : sys → Prop) (m : S_ A) (Q : A → sys → Prop) : Prop :=
  ∀ s, P s → Forall I (so_trace (m s)) ∧ I (so_sys (m s)) ∧
              ∀ a, so_res (m s) = Ok a → Q a (so_sys (m s)).

Lemma st_ret {A : Type} (I P : sys → Prop) (a : A) (Q : A → sys → Prop) :
  (∀ s, P s → I s) → (∀ s, P s → Q a s) → striple I P (sret a) Q.
Proof.
  intros HI HQ s Hs. split; [constructor|]. split; [by apply HI|].
  intros b E. injection E as <-. by apply HQ.
Qed.
Lemma st_throw {A : Type} (I P : sys → Prop) (e : err) (Q : A → sys → Prop) :
  (∀ s, P s → I s) → striple I P (sthrow e) Q.
Proof. intros HI s Hs. split; [constructor|]. split; [by apply HI|]. done. Qed.
Lemma st_get {A : Type} (I P : sys → Prop) (r : sys → res A) (Q : A → sys → Prop) :
  (∀ s, P s → I s) → (∀ s a, P s → r s = Ok a → Q a s) → striple I P (sget r) Q.
Proof.
  intros HI HQ s Hs. split; [constructor|]. split; [by apply HI|]. intros a E. by apply HQ.
Qed.
Lemma st_bind {A B : Type} (I P : sys → Prop) (m : S_ A) (k : A → S_ B)
    (Q : A → sys → Prop) (R : B → sys → Prop) :
  striple I P m Q → (∀ a, striple I (Q a) (k a) R) → striple I P (sbind m k) R.
Proof.
  intros Hm Hk s Hs. destruct (Hm s Hs) as (H1 & H2 & H3). unfold sbind.
  destruct (so_res (m s)) as [a|e] eqn:E; cbn [so_trace so_sys so_res]; [|done].
  destruct (Hk a _ (H3 a eq_refl)) as (K1 & K2 & K3). split; [by apply Forall_app|]. done.
Qed.
Lemma sbind_ok {A B : Type} (m : S_ A) (k : A → S_ B) (s : sys) (tr : list sys) (s1 : sys) (a : A) :
  m s = SOut tr s1 (Ok a) →
  sbind m k s = SOut (tr ++ so_trace (k a s1)) (so_sys (k a s1)) (so_res (k a s1)).
Proof. intros E. unfold sbind. by rewrite E. Qed.
Lemma sbind_ok_res {A B : Type} (m : S_ A) (k : A → S_ B) (s : sys) (a : A) :
  so_res (m s) = Ok a → so_res (sbind m k s) = so_res (k a (so_sys (m s))).
Proof. intros E. unfold sbind. by rewrite E. Qed.
Lemma sbind_ok_sys {A B : Type} (m : S_ A) (k : A → S_ B) (s : sys) (a : A) :
  so_res (m s) = Ok a → so_sys (sbind m k s) = so_sys (k a (so_sys (m s))).
Proof. intros E. unfold sbind. by rewrite E. Qed.
Lemma sbind_err {A B : Type} (m : S_ A) (k : A → S_ B) (s : sys) (tr : list sys) (s1 : sys) (e : err) :
  m s = SOut tr s1 (Err e) → sbind m k s = SOut tr s1 (Err e).
Proof. intros E. unfold sbind. by rewrite E. Qed.
Lemma st_test {A B : Type} (I P : sys → Prop) (g : sys → B) (k : B → S_ A) (Q : A → sys → Prop) :
  striple I P (λ s, k (g s) s) Q → striple I P (sbind (sget (λ s, Ok (g s))) k) Q.
Proof. intros H s Hs. exact (H s Hs). Qed.
Lemma st_weaken {A : Type} (I P P' : sys → Prop) (m : S_ A) (Q Q' : A → sys → Prop) :
  striple I P' m Q' → (∀ s, P s → P' s) → (∀ a s, Q' a s → Q a s) → striple I P m Q.
Proof.
  intros H HP HQ s Hs. destruct (H s (HP s Hs)) as (H1 & H2 & H3).
  split; [done|]. split; [done|]. intros a E. by apply HQ, H3.
Qed.
Lemma st_for {A : Type} (I : sys → Prop) (l : list A) (g : A → S_ unit) :
  (∀ x, x ∈ l → striple I I (g x) (λ _, I)) → striple I I (sfor l g) (λ _, I).
Proof.
  induction l as [|x l IH]; intros H; [by apply st_ret|].
  cbn [sfor]. eapply st_bind; [apply H; left|]. intros []. apply IH. intros y Hy. apply H. by right.
Qed.
Lemma st_ignore (I P : sys → Prop) (m : S_ unit) (Q : unit → sys → Prop) :
  striple I P m Q → (∀ s, I s → Q tt s) → striple I P (ignore_err m) Q.
Proof.
  intros H HQ s Hs. destruct (H s Hs) as (H1 & H2 & _). unfold ignore_err.
  cbn [so_trace so_sys so_res]. split; [done|]. split; [done|]. intros [] _. by apply HQ.
Qed.
Lemma st_fs {A : Type} (I P : sys → Prop) (m : M A) (Q : A → sys → Prop) :
  (∀ s, P s → Forall (λ f, I (set_fs s f)) (o_trace (m (s_fs s))) ∧ I (set_fs s (o_fs (m (s_fs s)))) ∧
     ∀ a, o_res (m (s_fs s)) = Ok a → Q a (set_fs s (o_fs (m (s_fs s))))) →
  striple I P (lift_fs m) Q.
Proof.
  intros H s Hs. destruct (H s Hs) as (H1 & H2 & H3). unfold lift_fs. cbn [so_trace so_sys so_res].
  split; [by apply Forall_fmap|]. done.
Qed.
Lemma set_fs_id (s : sys) : set_fs s (s_fs s) = s.
Proof. by destruct s. Qed.

(** ** Numbers and /proc *)
Lemma to_uint_nonnil (n : N) : N.to_uint n ≠ Decimal.Nil.
Proof.
  intros H. pose proof (DecimalN.Unsigned.of_to n) as E. rewrite H in E.
  change (0%N = n) in E. by subst n.
Qed.
Lemma show_pid_first (n : N) : ∃ a r, show_pid n = String a r ∧ Ascii.eqb a "-" = false ∧ Ascii.eqb a "+" = false.
Proof.
  unfold show_pid. destruct (N.to_uint n) eqn:E; [by apply to_uint_nonnil in E|..];
    eexists _, _; cbn [NilEmpty.string_of_uint]; done.
Qed.
Lemma parse_show (n : N) : (n ≤ 2147483647)%N → parse_i32 (show_pid n) = Some (Z.of_N n).
Proof.
  intros Hn. destruct (show_pid_first n) as (a & r & E & E1 & E2).
  unfold parse_i32. rewrite E, E1, E2. rewrite <-E. unfold digits. rewrite E. rewrite <-E.
  unfold show_pid. rewrite NilEmpty.usu. cbn [fmap option_fmap option_map mbind option_bind].
  rewrite DecimalN.Unsigned.of_to. unfold in_i32.
  assert (Z.leb (-2147483648) (Z.of_N n) = true) as -> by (apply Z.leb_le; lia).
  assert (Z.leb (Z.of_N n) 2147483647 = true) as -> by (apply Z.leb_le; lia). done.
Qed.

Definition no_ws (s : string) : bool := forallb (λ a, negb (is_ws a)) (to_bytes s).
Lemma words_word (cur w rest : string) : no_ws w = true → words cur (w +:+ rest) = words (cur +:+ w) rest.
Proof.
  revert cur. induction w as [|a w IH]; intros cur H.
  - by rewrite str_app_nil_r.
  - unfold no_ws in H. cbn [to_bytes forallb] in H. apply andb_true_iff in H as [Ha H].
    change (String a w +:+ rest) with (String a (w +:+ rest)). cbn [words].
    apply negb_true_iff in Ha. rewrite Ha. rewrite IH by done. rewrite <-str_app_assoc. done.
Qed.
Lemma words_space (cur rest : string) : cur ≠ "" → words cur (" " +:+ rest) = cur :: words "" rest.
Proof.
  intros H. change (" " +:+ rest) with (String " " rest). cbn [words].
  change (is_ws " ") with true. cbv iota. apply String.eqb_neq in H. by rewrite H.
Qed.
Lemma no_ws_app (a b : string) : no_ws (a +:+ b) = no_ws a && no_ws b.
Proof. unfold no_ws. rewrite to_bytes_app. apply forallb_app. Qed.
Lemma show_no_ws (n : N) : no_ws (show_pid n) = true.
Proof.
  unfold show_pid. generalize (N.to_uint n) as u. intros u. induction u as [|u IH|u IH|u IH|u IH|u IH|u IH|u IH|u IH|u IH|u IH];
    [done|..]; exact IH.
Qed.
Lemma stat_state (n : N) (p : proc) : no_ws (p_comm p) = true → no_ws (p_state p) = true → p_state p ≠ "" →
  split_whitespace (stat_line (Z.of_N n) p) !! 2 = Some (p_state p).
Proof.
  intros Hc Hs Hne. unfold split_whitespace, stat_line. rewrite N2Z.id.
  rewrite words_word by apply show_no_ws.
  change (" (" +:+ p_comm p +:+ ") " +:+ p_state p +:+ " 1 1")
    with (" " +:+ ("(" +:+ (p_comm p +:+ (") " +:+ (p_state p +:+ " 1 1"))))).
  rewrite words_space.
  2: { destruct (show_pid_first n) as (a & r & -> & _). done. }
  assert ("(" +:+ (p_comm p +:+ (") " +:+ (p_state p +:+ " 1 1")))
    = ("(" +:+ p_comm p +:+ ")") +:+ (" " +:+ (p_state p +:+ " 1 1"))) as ->.
  { rewrite <-!str_app_assoc. done. }
  rewrite words_word.
  2: { rewrite !no_ws_app, Hc. done. }
  rewrite words_space by done.
  rewrite words_word by done.
  change (" 1 1") with (" " +:+ "1 1").
  rewrite words_space by (intros E; by apply Hne).
  done.
Qed.

Lemma show_utf8 (n : N) : utf8_valid (show_pid n) = true.
Proof.
  apply ascii_only_utf8. unfold show_pid. generalize (N.to_uint n) as u. intros u.
  induction u as [|u IH|u IH|u IH|u IH|u IH|u IH|u IH|u IH|u IH|u IH]; [done|..]; exact IH.
Qed.

(** ** C43 *)
(** The killing loop. *)
Definition alive_ok (ns : N) (s : sys) : Prop :=
  ∀ q p, s_procs s !! q = Some p → p_ns p = Some ns → utf8_valid (p_cmdline p) = true.

Lemma p_ns_in (ns : N) (p : proc) : p_ns p = Some ns → in_ns ns p = true.
Proof.
  unfold p_ns, in_ns. destruct (p_nss p) as [|n l]; [done|]. intros H. injection H as ->.
  apply bool_decide_eq_true. left.
Qed.

Lemma kill_procs_sub (q : N) (ps : gmap N proc) k p : kill_procs q ps !! k = Some p → ps !! k = Some p.
Proof.
  unfold kill_procs. destruct (ps !! q) as [pq|] eqn:E; [|done].
  destruct (p_init pq).
  - destruct (p_nss pq) as [|n [|m l]]; [done|done|]. intros H. by apply map_filter_lookup_Some in H as [H _].
  - intros H. by apply lookup_delete_Some in H as [_ H].
Qed.
Lemma kill_procs_frame (ns q : N) (ps : gmap N proc) pq k p :
  ps !! q = Some pq → p_ns pq = Some ns → ps !! k = Some p → in_ns ns p = false →
  kill_procs q ps !! k = Some p.
Proof.
  intros Hq Hns Hk Hp. unfold kill_procs. rewrite Hq. destruct (p_init pq).
  - unfold p_ns in Hns. destruct (p_nss pq) as [|n [|m l]]; [done|done|]. injection Hns as ->.
    apply map_filter_lookup_Some. split; [done|]. simpl. done.
  - rewrite lookup_delete_ne; [done|]. intros ->. rewrite Hq in Hk. injection Hk as ->.
    by rewrite (p_ns_in ns p Hns) in Hp.
Qed.

(** Whatever the recorded process is: only processes of its namespace are killed. *)
Definition kills_only (ns : N) (s s' : sys) : Prop :=
  s_fs s' = s_fs s ∧ s_mounts s' = s_mounts s ∧
  (∀ k p, s_procs s' !! k = Some p → s_procs s !! k = Some p) ∧
  (∀ k p, s_procs s !! k = Some p → in_ns ns p = false → s_procs s' !! k = Some p).
Lemma kills_refl (ns : N) (s : sys) : kills_only ns s s.
Proof. done. Qed.
Lemma kills_trans (ns : N) (s t u : sys) : kills_only ns s t → kills_only ns t u → kills_only ns s u.
Proof.
  intros (A1 & A2 & A3 & A4) (B1 & B2 & B3 & B4). split; [congruence|]. split; [congruence|].
  split; [intros k p H; by apply A3, B3|]. intros k p H Hp. apply B4; [by apply A4|done].
Qed.

Lemma stop_one_only (ns q : N) (s : sys) :
  Forall (kills_only ns s) (so_trace (stop_one ns q s)) ∧ kills_only ns s (so_sys (stop_one ns q s)).
Proof.
  unfold stop_one. destruct (s_procs s !! q) as [p|] eqn:E; [|by split; [constructor|]].
  destruct (String.eqb (p_state p) "Z"); [by split; [constructor|]|].
  destruct (bool_decide (p_ns p = Some ns)) eqn:En; [|by split; [constructor|]].
  apply bool_decide_eq_true in En.
  destruct (utf8_valid (p_cmdline p)); [|by split; [constructor|]].
  unfold ignore_err, sys_kill. rewrite E. cbn [so_trace so_sys].
  assert (kills_only ns s (Sys (s_fs s) (kill_procs q (s_procs s)) (s_mounts s))) as H.
  { split; [done|]. split; [done|]. cbn [s_procs]. split.
    - intros k p' H. by eapply kill_procs_sub.
    - intros k p' H Hp. by eapply kill_procs_frame. }
  split; [|done]. by constructor.
Qed.
Lemma stop_loop_only (ns : N) (l : list N) (s : sys) :
  Forall (kills_only ns s) (so_trace (sfor l (stop_one ns) s)) ∧
  kills_only ns s (so_sys (sfor l (stop_one ns) s)).
Proof.
  assert (striple (kills_only ns s) (kills_only ns s) (sfor l (stop_one ns)) (λ _, kills_only ns s)) as H.
  { apply st_for. intros q _ t Ht. destruct (stop_one_only ns q t) as [H1 H2].
    split; [|split].
    - eapply Forall_impl; [exact H1|]. intros u Hu. by eapply kills_trans.
    - by eapply kills_trans.
    - intros _ _. by eapply kills_trans. }
  destruct (H s (kills_refl ns s)) as (H1 & H2 & _). done.
Qed.

(** Completeness of the loop. *)
Lemma stop_one_ok (ns q : N) (s : sys) : alive_ok ns s → so_res (stop_one ns q s) = Ok tt.
Proof.
  intros H. unfold stop_one. destruct (s_procs s !! q) as [p|] eqn:E; [|done].
  destruct (String.eqb (p_state p) "Z"); [done|].
  destruct (bool_decide (p_ns p = Some ns)) eqn:En; [|done].
  apply bool_decide_eq_true in En. by rewrite (H q p E En).
Qed.
Lemma alive_ok_kills (ns : N) (s t : sys) : alive_ok ns s → kills_only ns s t → alive_ok ns t.
Proof. intros H (_ & _ & Hs & _) q p Hq Hn. exact (H q p (Hs q p Hq) Hn). Qed.

(** The sandbox's first process: process 1 of a namespace of its own. *)
Definition sandbox_init (ns : N) (p : proc) : Prop :=
  p_init p = true ∧ p_children p = ns ∧ p_state p ≠ "Z" ∧ ∃ m l, p_nss p = ns :: m :: l.

Lemma stop_loop_done (ns i : N) (p0 : proc) (l : list N) (s : sys) :
  alive_ok ns s → (s_procs s !! i = Some p0 ∨ ∀ k p, s_procs s !! k = Some p → in_ns ns p = false) →
  sandbox_init ns p0 →
  so_res (sfor l (stop_one ns) s) = Ok tt ∧
  (i ∈ l → ∀ k p, s_procs (so_sys (sfor l (stop_one ns) s)) !! k = Some p → in_ns ns p = false) ∧
  ((∀ k p, s_procs s !! k = Some p → in_ns ns p = false) →
   ∀ k p, s_procs (so_sys (sfor l (stop_one ns) s)) !! k = Some p → in_ns ns p = false).
Proof.
  intros Hok Hi Hinit. revert s Hok Hi. induction l as [|q l IH]; intros s Hok Hi.
  - split; [done|]. split; [intros H; by apply elem_of_nil in H|]. done.
  - cbn [sfor]. unfold sbind. rewrite (stop_one_ok ns q s Hok). cbn [so_trace so_sys so_res].
    set (t := so_sys (stop_one ns q s)).
    assert (kills_only ns s t) as Hst by apply stop_one_only.
    assert (alive_ok ns t) as Hokt by (by eapply alive_ok_kills).
    assert ((∀ k p, s_procs s !! k = Some p → in_ns ns p = false) →
            (∀ k p, s_procs t !! k = Some p → in_ns ns p = false)) as Hmono.
    { intros H k p Hk. apply (H k). by apply Hst. }
    assert (s_procs t !! i = Some p0 ∨ ∀ k p, s_procs t !! k = Some p → in_ns ns p = false) as Hit.
    { destruct Hi as [Hi|Hi]; [|right; by apply Hmono].
      unfold t, stop_one. destruct (s_procs s !! q) as [p|] eqn:E; [|by left].
      destruct (String.eqb (p_state p) "Z"); [by left|].
      destruct (bool_decide (p_ns p = Some ns)) eqn:En; [|by left].
      apply bool_decide_eq_true in En.
      rewrite (Hok q p E En). unfold ignore_err, sys_kill. rewrite E. cbn [so_sys s_procs].
      unfold kill_procs. rewrite E. destruct (p_init p) eqn:Ei.
      - unfold p_ns in En. destruct (p_nss p) as [|n [|m r]]; [by left|by left|].
        injection En as ->. right. intros k p' Hk. by apply map_filter_lookup_Some in Hk as [_ Hk].
      - destruct (decide (q = i)) as [->|Hne].
        + rewrite Hi in E. injection E as <-. destruct Hinit as [Hp _]. congruence.
        + left. by rewrite lookup_delete_ne. }
    destruct (IH t Hokt Hit) as (I1 & I2 & I3). split; [done|]. split.
    + intros Hin. apply elem_of_cons in Hin as [->|Hin]; [|by apply I2].
      apply I3. destruct Hi as [Hi|Hi]; [|by apply Hmono].
      destruct Hinit as (Hp & Hch & Hz & m & r & Hns).
      intros k p. unfold t, stop_one. rewrite Hi.
      apply String.eqb_neq in Hz. rewrite Hz.
      assert (p_ns p0 = Some ns) as En by (unfold p_ns; by rewrite Hns).
      rewrite bool_decide_eq_true_2 by done. rewrite (Hok q p0 Hi En).
      unfold ignore_err, sys_kill. rewrite Hi. cbn [so_sys s_procs]. unfold kill_procs.
      rewrite Hi, Hp, Hns. intros Hk. by apply map_filter_lookup_Some in Hk as [_ Hk].
    + intros H. apply I3. by apply Hmono.
Qed.

(** ** The files of a sandbox, and what an operation may touch *)
Definition of_sandbox (storage : path) (name : string) (q : path) : Prop :=
  under (base_of storage name) q = true ∨ q = lock_of storage name ∨ q = pid_of storage name.
(** Outside the sandbox's directory, lock file and pid file nothing differs. *)
Definition only_touches (storage : path) (name : string) (f f' : fs) : Prop :=
  ∀ q, ¬ of_sandbox storage name q → f' !! q = f !! q.

Lemma only_refl (storage : path) (name : string) (f : fs) : only_touches storage name f f.
Proof. done. Qed.
Lemma only_trans (storage : path) (name : string) (f g h : fs) :
  only_touches storage name f g → only_touches storage name g h → only_touches storage name f h.
Proof. intros H1 H2 q Hq. rewrite H2 by done. by apply H1. Qed.
Lemma only_change (storage : path) (name : string) (f g : fs) (p : path) : of_sandbox storage name p →
  (∀ q, q ≠ p → g !! q = f !! q) → only_touches storage name f g.
Proof. intros Hp H q Hq. apply H. by intros ->. Qed.

Lemma storage_outside (storage : path) (name : string) : ¬ of_sandbox storage name storage.
Proof.
  intros [H|[H|H]].
  - apply under_spec in H as [s H]. unfold base_of in H. rewrite <-app_assoc in H.
    symmetry in H. by apply snoc_ne_self in H.
  - symmetry in H. by apply snoc_ne_self in H.
  - symmetry in H. by apply snoc_ne_self in H.
Qed.
Lemma only_storage (storage : path) (name : string) (f g : fs) : only_touches storage name f g →
  is_dir_at f storage → is_dir_at g storage.
Proof.
  intros H (n & Hn & Hk). exists n. split; [|done]. rewrite H; [done|]. apply storage_outside.
Qed.
Lemma base_under_child (storage : path) (name x : string) : under (base_of storage name) (storage ++ [x]) = true →
  x = name.
Proof.
  intros H. apply under_spec in H as [s H]. unfold base_of in H. rewrite <-app_assoc in H.
  apply app_inv_head in H. cbn [app] in H. by injection H.
Qed.
Lemma suffix_ne (name suf : string) : suf ≠ "" → name +:+ suf ≠ name.
Proof.
  intros Hs E. apply (f_equal String.length) in E. rewrite str_app_len in E.
  destruct suf; [done|]. cbn [String.length] in E. lia.
Qed.
Lemma lock_outside (storage : path) (name : string) : under (base_of storage name) (lock_of storage name) = false.
Proof.
  destruct (under (base_of storage name) (lock_of storage name)) eqn:E; [|done].
  apply base_under_child in E. by apply suffix_ne in E.
Qed.
Lemma pid_outside (storage : path) (name : string) : under (base_of storage name) (pid_of storage name) = false.
Proof.
  destruct (under (base_of storage name) (pid_of storage name)) eqn:E; [|done].
  apply base_under_child in E. by apply suffix_ne in E.
Qed.
Lemma lock_ne_pid (storage : path) (name : string) : lock_of storage name ≠ pid_of storage name.
Proof.
  unfold lock_of, pid_of. intros H. apply app_inj_tail in H as [_ H]. by apply lock_not_pid in H.
Qed.

(** The state between two operations on the sandbox, started in [f0]. *)
Definition mounts_ok (base : path) (s : sys) : Prop :=
  ∀ m, m ∈ s_mounts s → under base (mt_at m) = true →
    is_Some (s_fs s !! mt_at m) ∧ n_kind (mt_under m) = KDir ∧ (n_perm (mt_under m) < 4096)%N.
Definition not_link (f : fs) (p : path) : Prop := ∀ n, f !! p = Some n → is_klink (n_kind n) = false.

(** What can appear: directories that were covered by a mount, and the lock file, empty. *)
Definition few_new (storage : path) (name : string) (f f' : fs) : Prop :=
  ∀ q n, f' !! q = Some n →
    f !! q = Some n ∨ n_kind n = KDir ∨ (q = lock_of storage name ∧ n_kind n = KFile "").
Record Frame (storage : path) (name : string) (f0 : fs) (s : sys) : Prop := {
  fr_wf : wf_tree (s_fs s);
  fr_only : only_touches storage name f0 (s_fs s);
  fr_new : few_new storage name f0 (s_fs s);
}.
Record Inv (storage : path) (name : string) (f0 : fs) (s : sys) : Prop := {
  iv_frame : Frame storage name f0 s;
  iv_mounts : mounts_ok (base_of storage name) s;
  iv_base : not_link (s_fs s) (base_of storage name);
  iv_lock : not_link (s_fs s) (lock_of storage name);
  iv_pid : not_link (s_fs s) (pid_of storage name);
}.

Section Ops.
Context (storage : path) (name : string) (f0 : fs).
Context (Hdir : is_dir_at f0 storage) (Hname : comp_ok name).
Notation I := (Frame storage name f0).
Notation P := (Inv storage name f0).
Notation base := (base_of storage name).
Notation lockp := (lock_of storage name).
Notation pidp := (pid_of storage name).

Lemma inv_frame s : P s → I s.
Proof. by intros [? _ _ _ _]. Qed.
Lemma frame_dir s : I s → is_dir_at (s_fs s) storage.
Proof. intros [_ H _]. by eapply only_storage. Qed.
Lemma frame_path s x : I s → comp_ok x → dirpath (s_fs s) (storage ++ [x]).
Proof. intros H Hx. apply dirpath_snoc; [apply H|by apply frame_dir|done]. Qed.
Lemma name_slash : contains "/" name = false.
Proof. apply Hname. Qed.
Lemma frame_base s : I s → dirpath (s_fs s) base.
Proof. intros H. by apply frame_path. Qed.
Lemma frame_lock s : I s → dirpath (s_fs s) lockp.
Proof. intros H. apply frame_path; [done|]. apply lock_comp_ok, name_slash. Qed.
Lemma frame_pid s : I s → dirpath (s_fs s) pidp.
Proof. intros H. apply frame_path; [done|]. apply pid_comp_ok, name_slash. Qed.

Lemma frame_step s f : I s → wf_tree f → only_touches storage name (s_fs s) f → few_new storage name (s_fs s) f →
  I (set_fs s f).
Proof.
  intros [H1 H2 H3] Hwf Ho Hl. split; [done|simpl; by eapply only_trans|].
  intros q n Hq. simpl in Hq. destruct (Hl q n Hq) as [A|A]; [by apply H3|by right].
Qed.

(** A change of a single file outside the sandbox's directory. *)
Lemma inv_step s f p : P s → wf_tree f → p = lockp ∨ p = pidp →
  (∀ q, q ≠ p → f !! q = s_fs s !! q) →
  (∀ n, f !! p = Some n → p = lockp ∧ n_kind n = KFile "") → P (set_fs s f).
Proof.
  intros [H1 H2 H3 H4 H5] Hwf Hp Hf Hnew.
  assert (not_link f p) as Hl by (intros n Hn; destruct (Hnew n Hn) as [_ ->]; done).
  assert (under base p = false) as Hb by (destruct Hp as [-> | ->]; [apply lock_outside|apply pid_outside]).
  assert (∀ q, under base q = true → f !! q = s_fs s !! q) as Hsame.
  { intros q Hq. apply Hf. intros ->. congruence. }
  split.
  - apply frame_step; [done|done| |].
    + apply (only_change _ _ _ _ p); [|done]. right. destruct Hp; [by left|by right].
    + intros q n Hq. destruct (decide (q = p)) as [-> |Hne]; [right; right; by apply Hnew|].
      left. by rewrite <-Hf.
  - intros m Hm Hu. destruct (H2 m Hm Hu) as (A & B & C). split; [|done]. simpl. by rewrite Hsame.
  - intros n Hn. apply H3. rewrite <-Hsame; [done|apply under_refl].
  - intros n Hn. simpl in Hn. destruct (decide (p = lockp)) as [E|E]; [subst p; by apply Hl|].
    apply H4. rewrite <-Hf by done. done.
  - intros n Hn. simpl in Hn. destruct (decide (p = pidp)) as [E|E]; [subst p; by apply Hl|].
    apply H5. rewrite <-Hf by done. done.
Qed.

Lemma op_open umask : striple I P (lift_fs (sys_open_create umask lockp))
  (λ _ s, P s ∧ ∃ n, s_fs s !! lockp = Some n ∧ n_kind n ≠ KDir).
Proof.
  apply st_fs. intros s Hs. pose proof (inv_frame s Hs) as Hf.
  unfold sys_open_create. rewrite lookup_f_dirpath; [|by apply frame_lock|by apply Hs].
  destruct (s_fs s !! lockp) as [n|] eqn:E.
  - destruct (is_kdir (n_kind n)) eqn:Ek; cbn [o_trace o_fs o_res fail_]; rewrite set_fs_id.
    + split; [constructor|]. split; [done|]. done.
    + split; [constructor|]. split; [done|]. intros _ _. split; [done|]. exists n. split; [done|].
      intros Ek'. by rewrite Ek' in Ek.
  - cbn [o_trace o_fs o_res emit].
    set (nd := Node (KFile "") (and_not 438 umask) 0 0 (parent_dev (s_fs s) lockp) ∅).
    assert (P (set_fs s (<[lockp := nd]> (s_fs s)))) as HP.
    { apply (inv_step s _ lockp); [done| |by left| |].
      - apply wf_insert; [apply Hf|by apply frame_lock|by apply and_not_lt|].
        right. split; [by destruct storage|]. apply wf_none_below; [apply Hf|done].
      - intros q Hq. by rewrite lookup_insert_ne.
      - intros n Hn. rewrite lookup_insert in Hn. by injection Hn as <-. }
    pose proof (inv_frame _ HP) as HI.
    split; [by constructor|]. split; [done|]. intros _ _. split; [done|].
    exists nd. split; [simpl; by rewrite lookup_insert|done].
Qed.

Lemma op_unlink p : p = lockp ∨ p = pidp →
  striple I P (lift_fs (sys_unlink p)) (λ _ s, P s ∧ s_fs s !! p = None).
Proof.
  intros Hp. apply st_fs. intros s Hs. pose proof (inv_frame s Hs) as Hf.
  assert (dirpath (s_fs s) p) as Hd by (destruct Hp as [-> | ->]; [by apply frame_lock|by apply frame_pid]).
  destruct (unlink_cases (s_fs s) p) as [[e ->]|(n & _ & Hn & _ & _ & -> & Hwf)];
    [apply Hf|by apply dirpath_nolink|..]; cbn [o_trace o_fs o_res emit fail_].
  - rewrite set_fs_id. split; [constructor|]. split; [done|]. done.
  - assert (P (set_fs s (delete p (s_fs s)))) as HP.
    { apply (inv_step s _ p); [done|done|done| |].
      - intros q Hq. by rewrite lookup_delete_ne.
      - intros m Hm. by rewrite lookup_delete in Hm. }
    pose proof (inv_frame _ HP) as HI. split; [by constructor|]. split; [done|].
    intros _ _. split; [done|]. simpl. by rewrite lookup_delete.
Qed.
(** Processes are not files. *)
Lemma op_procs s ps : P s → P (Sys (s_fs s) ps (s_mounts s)).
Proof. intros [[H1 H1' H1''] H2 H3 H4 H5]. split; [split|..]; done. Qed.
Lemma op_stop_processes ord pid : striple I P (stop_processes ord pid) (λ _, P).
Proof.
  intros s Hs. unfold stop_processes.
  assert (∀ t, s_fs t = s_fs s → s_mounts t = s_mounts s → P t) as Hsame.
  { intros [ft pt mt] E1 E2. simpl in E1, E2. subst ft mt. by apply op_procs. }
  assert (striple I P (sret tt) (λ _, P)) as Hret by (apply st_ret; [apply inv_frame|done]).
  destruct pid as [z|]; [|by apply Hret].
  destruct (proc_of s z) as [p|]; [|by apply Hret].
  destruct (String.eqb (p_state p) "Z"); [by apply Hret|].
  destruct (stop_loop_only (p_children p) (ord (pids s)) s) as [H1 (H2 & H3 & _)].
  split; [|split].
  - eapply Forall_impl; [exact H1|]. intros t (A & B & _). apply inv_frame. by apply Hsame.
  - apply inv_frame. by apply Hsame.
  - intros _ _. by apply Hsame.
Qed.
Lemma pid_exists s : P s → exists_ (s_fs s) pidp = bool_decide (is_Some (s_fs s !! pidp)).
Proof.
  intros Hs. unfold exists_. rewrite stat_dirpath; [|apply frame_pid; by apply inv_frame|by apply Hs].
  by destruct (s_fs s !! pidp).
Qed.
Lemma op_remove_pid : striple I P (remove_pid_file storage name)
  (λ _ s, P s ∧ s_fs s !! pidp = None).
Proof.
  intros s Hs. unfold remove_pid_file. rewrite pid_exists by done. case_bool_decide as E.
  - by destruct (op_unlink pidp ltac:(by right) s Hs) as (H1 & H2 & H3).
  - split; [constructor|]. split; [by apply inv_frame|]. intros _ _. split; [done|].
    simpl. by apply eq_None_not_Some.
Qed.
Lemma op_stop ord sb : sb_storage sb = storage → sb_name sb = name →
  striple I P (sandbox_stop ord sb) (λ _ s, P s ∧ s_fs s !! pidp = None).
Proof.
  intros E1 E2. unfold sandbox_stop. rewrite E1, E2.
  eapply st_bind; [apply op_stop_processes|]. intros []. apply op_remove_pid.
Qed.

(** Unmounting. *)
Lemma wf_umount (f : fs) (m : mount) : wf_tree f → mt_at m ≠ [] → is_Some (f !! mt_at m) →
  n_kind (mt_under m) = KDir → (n_perm (mt_under m) < 4096)%N → wf_tree (umount_fs m f).
Proof.
  intros Hwf Hne [n Hn] Hk Hp. unfold umount_fs. set (p := mt_at m) in *.
  set (g := filter (λ kn : path * node, under p kn.1 = false) f).
  assert (∀ q, under p q = false → g !! q = f !! q) as Hg.
  { intros q Hq. unfold g. rewrite map_filter_lookup. destruct (f !! q) as [x|]; [|done].
    simpl. by rewrite option_guard_True. }
  assert (∀ q x, g !! q = Some x → f !! q = Some x ∧ under p q = false) as Hg'.
  { intros q x Hq. unfold g in Hq. by apply map_filter_lookup_Some in Hq as [A B]. }
  assert (∀ a c r, p = a ++ c :: r → under p a = false) as Hanc.
  { intros a c r E. destruct (under p a) eqn:U; [|done]. apply under_spec in U as [z U].
    rewrite E, <-app_assoc in U. rewrite <-(app_nil_r a) in U at 1. by apply app_inv_head in U. }
  assert (under p [] = false) as Hroot.
  { destruct (under p []) eqn:U; [|done]. apply under_spec in U as [z U]. by destruct p. }
  assert (∀ a c x, g !! (a ++ [c]) = Some x → under p a = false) as Hpar.
  { intros a c x Hx. apply Hg' in Hx as [_ Hx]. destruct (under p a) eqn:U; [|done].
    apply under_spec in U as [z ->]. by rewrite <-app_assoc, under_app in Hx. }
  assert (wf_tree g) as Hwg.
  { split.
    - destruct (wf_root f Hwf) as (r & Hr & Hkr). exists r. by rewrite Hg.
    - intros a c x Hx. rewrite Hg by (by eapply Hpar). apply Hg' in Hx as [Hx _]. by eapply wf_parent.
    - intros a c x Hx. apply Hg' in Hx as [Hx _]. by eapply wf_comp.
    - intros a x Hx. apply Hg' in Hx as [Hx _]. by eapply wf_perm. }
  apply wf_insert; [done| |done|by left].
  intros a c r E. destruct (wf_dirpath f p n Hwf Hn a c r E) as [(d & Hd & Hkd) Hc].
  split; [|done]. exists d. rewrite Hg by (by eapply Hanc). done.
Qed.
Lemma umount_outside (f : fs) (m : mount) (q : path) : under (mt_at m) q = false → umount_fs m f !! q = f !! q.
Proof.
  intros H. unfold umount_fs. rewrite lookup_insert_ne by (intros <-; by rewrite under_refl in H).
  rewrite map_filter_lookup. destruct (f !! q); [|done]. simpl. by rewrite option_guard_True.
Qed.
Lemma umount_at (f : fs) (m : mount) : umount_fs m f !! mt_at m = Some (mt_under m).
Proof. unfold umount_fs. by rewrite lookup_insert. Qed.
Lemma umount_inside (f : fs) (m : mount) (q : path) : under (mt_at m) q = true → q ≠ mt_at m →
  umount_fs m f !! q = None.
Proof.
  intros H Hne. unfold umount_fs. rewrite lookup_insert_ne by done. rewrite map_filter_lookup.
  destruct (f !! q); [|done]. simpl. rewrite option_guard_False; [done|]. by rewrite H.
Qed.
Lemma pop_spec (p : path) (l : list mount) (m : mount) (l' : list mount) : pop_mount p l = Some (m, l') →
  mt_at m = p ∧ l ≡ₚ m :: l'.
Proof.
  revert l'. induction l as [|x l IH]; intros l' H; [done|]. cbn [pop_mount] in H.
  destruct (decide (mt_at x = p)).
  - injection H as <- <-. done.
  - destruct (pop_mount p l) as [[m' l'']|]; [|done]. injection H as <- <-.
    destruct (IH l'' eq_refl) as [A B]. split; [done|]. rewrite B. apply Permutation_swap.
Qed.
Lemma op_umount busy p : under base p = true → striple I P (sys_umount busy p) (λ _, P).
Proof.
  intros Hu s Hs. pose proof (inv_frame s Hs) as Hf. unfold sys_umount.
  assert (striple I P (sthrow EBUSY : S_ unit) (λ _, P) ∧ striple I P (sthrow EINVAL : S_ unit) (λ _, P)) as [Ht1 Ht2].
  { split; apply st_throw; apply inv_frame. }
  destruct (busy p); [by apply Ht1|].
  destruct (pop_mount p (s_mounts s)) as [[m l]|] eqn:Epop; [|by apply Ht2].
  destruct (pop_spec _ _ _ _ Epop) as [Hat Hperm].
  assert (m ∈ s_mounts s) as Hm by (rewrite Hperm; left).
  destruct Hs as [H1 H2 H3 H4 H5]. destruct (H2 m Hm ltac:(by rewrite Hat)) as (A & B & C).
  assert (wf_tree (umount_fs m (s_fs s))) as Hwf.
  { apply wf_umount; [apply H1| |done..]. rewrite Hat. intros ->.
    apply under_spec in Hu as [z Hu]. by destruct storage. }
  set (s' := Sys (umount_fs m (s_fs s)) (s_procs s) _).
  assert (P s') as HP.
  { split.
    - split; [done| |].
      { eapply only_trans; [apply H1|]. intros q Hq. apply umount_outside. rewrite Hat.
        destruct (under p q) eqn:U; [|done]. exfalso. apply Hq. left. by eapply under_trans. }
      intros q n Hq. cbn [s_fs s'] in Hq.
      destruct (under (mt_at m) q) eqn:U; [|rewrite umount_outside in Hq by done; by apply H1].
      destruct (decide (q = mt_at m)) as [-> |Hne].
      { rewrite umount_at in Hq. injection Hq as <-. right. by left. }
      by rewrite umount_inside in Hq.
    - intros m' Hm' Hu'. simpl in Hm'. apply elem_of_list_filter in Hm' as [Hn Hm'].
      assert (m' ∈ s_mounts s) as Hm'' by (rewrite Hperm; by right).
      destruct (H2 m' Hm'' Hu') as (A' & B' & C'). split; [|done]. simpl.
      destruct (decide (mt_at m' = p)) as [E|E].
      + rewrite E, <-Hat, umount_at. by eexists.
      + rewrite umount_outside; [done|]. rewrite Hat. destruct (under p (mt_at m')) eqn:U; [|done].
        exfalso. by apply Hn.
    - intros n Hn. simpl in Hn. destruct (decide (base = p)) as [E|E].
      + rewrite E, <-Hat, umount_at in Hn. injection Hn as <-. by rewrite B.
      + apply H3. rewrite <-Hn. symmetry. apply umount_outside. rewrite Hat.
        destruct (under p base) eqn:U; [|done]. exfalso. apply E. by apply under_antisym.
    - intros n Hn. simpl in Hn. apply H4. rewrite <-Hn. symmetry. apply umount_outside. rewrite Hat.
      destruct (under p lockp) eqn:U; [|done]. exfalso.
      pose proof (lock_outside storage name) as Hlo. rewrite (under_trans base p lockp Hu U) in Hlo. done.
    - intros n Hn. simpl in Hn. apply H5. rewrite <-Hn. symmetry. apply umount_outside. rewrite Hat.
      destruct (under p pidp) eqn:U; [|done]. exfalso.
      pose proof (pid_outside storage name) as Hlo. rewrite (under_trans base p pidp Hu U) in Hlo. done. }
  pose proof (inv_frame _ HP) as HI. cbn [so_trace so_sys so_res].
  split; [by constructor|]. split; [done|]. done.
Qed.
Lemma umount_pid busy p s : under base p = true →
  s_fs (so_sys (sys_umount busy p s)) !! pidp = s_fs s !! pidp.
Proof.
  intros Hu. unfold sys_umount. destruct (busy p); [done|].
  destruct (pop_mount p (s_mounts s)) as [[m l]|] eqn:Epop; [|done].
  destruct (pop_spec _ _ _ _ Epop) as [Hat _]. cbn [so_sys s_fs]. apply umount_outside. rewrite Hat.
  destruct (under p pidp) eqn:U; [|done]. exfalso.
  pose proof (pid_outside storage name) as Hlo. rewrite (under_trans base p pidp Hu U) in Hlo. done.
Qed.
Lemma umount_err busy p s e : so_res (sys_umount busy p s) = Err e → so_sys (sys_umount busy p s) = s.
Proof.
  unfold sys_umount. destruct (busy p); [done|].
  by destruct (pop_mount p (s_mounts s)) as [[m l]|].
Qed.
Lemma op_umount_ign busy p k : under base p = true →
  striple I (λ s, P s ∧ s_fs s !! pidp = k) (ignore_err (sys_umount busy p)) (λ _ s, P s ∧ s_fs s !! pidp = k).
Proof.
  intros Hu s [Hs Hk]. destruct (op_umount busy p Hu s Hs) as (H1 & H2 & H3).
  unfold ignore_err. cbn [so_trace so_sys so_res]. split; [done|]. split; [done|]. intros _ _.
  rewrite umount_pid by done. split; [|done].
  destruct (so_res (sys_umount busy p s)) as [[]|e] eqn:E; [by apply (H3 tt)|].
  by rewrite (umount_err _ _ _ _ E).
Qed.
Lemma mounts_below_spec s b p : p ∈ mounts_below s b ↔ under b p = true ∧ ∃ m, m ∈ s_mounts s ∧ mt_at m = p.
Proof.
  unfold mounts_below. rewrite elem_of_sort_by, elem_of_list_filter, elem_of_list_fmap.
  split; intros [A (m & B & C)]; (split; [done|]); by exists m.
Qed.
Lemma op_unmount busy k :
  striple I (λ s, P s ∧ s_fs s !! pidp = k) (unmount busy base) (λ _ s, P s ∧ s_fs s !! pidp = k).
Proof.
  intros s Hs. unfold unmount.
  assert (striple I (λ s, P s ∧ s_fs s !! pidp = k)
    (sfor (mounts_below s base) (λ p, ignore_err (sys_umount busy p)))
    (λ _ s, P s ∧ s_fs s !! pidp = k)) as H; [|by apply H].
  assert (∀ p, p ∈ mounts_below s base → under base p = true) as Hl.
  { intros p Hp. by apply mounts_below_spec in Hp as [Hp _]. }
  revert Hl. generalize (mounts_below s base) as l. clear s Hs. intros l Hl.
  induction l as [|p l IH].
  - apply st_ret; [|done]. intros s [Hs _]. by apply inv_frame.
  - cbn [sfor]. eapply st_bind; [apply op_umount_ign, Hl; left|]. intros []. apply IH.
    intros q Hq. apply Hl. by right.
Qed.

(** Removing the directory. *)
Lemma op_rmdir dord : (∀ l, dord l ≡ₚ l) →
  striple I (λ s, P s ∧ s_fs s !! pidp = None)
    (λ s, (if exists_ (s_fs s) base then lift_fs (rmdir_rec dord base) else sret tt) s)
    (λ _ s, I s ∧ s_fs s !! pidp = None ∧ gone_below base (s_fs s)).
Proof.
  intros Hord s [Hs Hp]. pose proof (inv_frame s Hs) as Hf.
  pose proof (frame_base s Hf) as Hb. unfold exists_. rewrite stat_dirpath; [|done|by apply Hs].
  destruct (s_fs s !! base) as [n|] eqn:En; cbn [is_ok].
  - destruct (rmdir_rec_frame dord base (s_fs s) Hord) as (H1 & H2 & H3);
      [apply Hf|by apply dirpath_nolink|apply Hs|].
    assert (∀ t, shrinks base (s_fs s) t → I (set_fs s t) ∧ t !! pidp = None) as Hsh.
    { intros t [Hwf Ht]. split.
      - apply frame_step; [done|done| |].
        { intros q Hq. destruct (Ht q) as [A|[_ A]]; [done|]. exfalso. apply Hq. by left. }
        intros q m Hq. left. by destruct (Ht q) as [A|[A _]]; [rewrite <-A|congruence].
      - destruct (Ht pidp) as [A|[A _]]; congruence. }
    unfold lift_fs. cbn [so_trace so_sys so_res]. split; [|split].
    + apply Forall_fmap. eapply Forall_impl; [exact H1|]. intros t Ht. simpl. by apply Hsh.
    + by apply Hsh.
    + intros [] E. destruct (Hsh _ H2) as [A B]. split; [done|]. split; [done|]. by apply H3.
  - split; [constructor|]. split; [done|]. intros _ _. split; [done|]. split; [done|].
    intros q Hq. cbn [so_sys sret]. destruct (s_fs s !! q) as [m|] eqn:Eq; [|done]. exfalso.
    apply under_spec in Hq as [z ->].
    destruct (wf_is_Some_prefix _ _ _ _ (fr_wf _ _ _ _ Hf) Eq) as [x Hx]. congruence.
Qed.
Lemma op_unlock : striple I (λ s, I s ∧ s_fs s !! pidp = None ∧ gone_below base (s_fs s))
  (lift_fs (sys_unlink lockp))
  (λ _ s, I s ∧ s_fs s !! pidp = None ∧ gone_below base (s_fs s) ∧ s_fs s !! lockp = None).
Proof.
  apply st_fs. intros s (Hs & Hp & Hg).
  destruct (unlink_cases (s_fs s) lockp) as [[e ->]|(n & _ & Hn & _ & _ & -> & Hwf)];
    [apply Hs|apply dirpath_nolink; by apply frame_lock|..]; cbn [o_trace o_fs o_res emit fail_].
  - rewrite set_fs_id. split; [constructor|]. split; [done|]. done.
  - assert (I (set_fs s (delete lockp (s_fs s)))) as HI.
    { apply frame_step; [done|done| |].
      - intros q Hq. apply lookup_delete_ne. intros <-. apply Hq. right. by left.
      - intros q m Hq. left. by apply lookup_delete_Some in Hq as [_ Hq]. }
    split; [by constructor|]. split; [done|]. intros _ _. split; [done|]. simpl.
    rewrite lookup_delete. split; [|split; [|done]].
    + apply lookup_delete_None. by right.
    + intros q Hq. apply lookup_delete_None. right. by apply Hg.
Qed.

Lemma op_sandbox_delete ord busy dord sb : (∀ l, dord l ≡ₚ l) → sb_storage sb = storage → sb_name sb = name →
  striple I P (sandbox_delete ord busy dord sb)
    (λ _ s, I s ∧ s_fs s !! pidp = None ∧ gone_below base (s_fs s) ∧ s_fs s !! lockp = None).
Proof.
  intros Hord E1 E2. unfold sandbox_delete. rewrite E1, E2.
  eapply st_bind; [by apply op_stop|]. intros [].
  eapply st_bind; [apply op_unmount|]. intros [].
  apply st_test. intros s Hs. pose proof (op_rmdir dord Hord s Hs) as Hr. cbv beta in Hr.
  assert (striple I (λ t, t = s)
    (sbind (if exists_ (s_fs s) base then lift_fs (rmdir_rec dord base) else sret tt)
       (λ _, lift_fs (sys_unlink lockp)))
    (λ _ s, I s ∧ s_fs s !! pidp = None ∧ gone_below base (s_fs s) ∧ s_fs s !! lockp = None)) as H.
  { apply (st_bind _ _ _ _ (λ _ s, I s ∧ s_fs s !! pidp = None ∧ gone_below base (s_fs s)));
      [|intros []; apply op_unlock]. intros t ->. exact Hr. }
  exact (H s eq_refl).
Qed.

(** Getting hold of the sandbox. *)
Lemma op_running : striple I P (get_running_sandbox_pid storage name) (λ _, P).
Proof.
  intros s Hs. pose proof (inv_frame s Hs) as Hf. unfold get_running_sandbox_pid.
  assert (∀ o : option Z, striple I P (sret o) (λ _, P)) as Hret
    by (intros o; apply st_ret; [apply inv_frame|done]).
  destruct (exists_ (s_fs s) pidp); [|by apply Hret].
  destruct (recorded_pid s storage name) as [z|]; [by apply Hret|].
  assert (striple I P (ignore_err (lift_fs (sys_unlink pidp))) (λ _, P)) as H.
  { intros t Ht. destruct (op_unlink pidp ltac:(by right) t Ht) as (H1 & H2 & H3).
    unfold ignore_err. cbn [so_trace so_sys so_res]. split; [done|]. split; [done|]. intros _ _.
    destruct (so_res (lift_fs (sys_unlink pidp) t)) as [a|e] eqn:E; [by apply (H3 a)|].
    clear H1 H2 H3. revert E. unfold lift_fs. cbn [so_res so_sys].
    destruct (unlink_cases (s_fs t) pidp) as [[e' ->]|(n & _ & _ & _ & _ & -> & _)];
      [apply inv_frame in Ht; apply Ht|apply dirpath_nolink, frame_pid; by apply inv_frame|..].
    - cbn [o_fs fail_]. by rewrite set_fs_id.
    - done. }
  assert (striple I P (sbind (ignore_err (lift_fs (sys_unlink pidp))) (λ _, sret (None : option Z))) (λ _, P)) as H2.
  { eapply st_bind; [exact H|]. intros []. apply st_ret; [apply inv_frame|done]. }
  exact (H2 s Hs).
Qed.
Lemma op_get umask : striple I P (sandbox_get umask storage name)
  (λ o s, P s ∧ ∀ sb, o = Some sb → sb_storage sb = storage ∧ sb_name sb = name).
Proof.
  unfold sandbox_get. eapply st_bind; [apply op_open|]. intros [].
  eapply st_bind.
  { apply (st_get _ _ _ (λ _, P)); [intros s [Hs _]; by apply inv_frame|]. intros s a [Hs _] _. done. }
  intros there. destruct there; cbn [negb].
  - eapply st_bind; [apply op_running|]. intros [z|]; (apply st_ret; [apply inv_frame|]); intros s Hs;
      (split; [done|]); intros sb E; [injection E as <-|]; done.
  - apply st_ret; [apply inv_frame|]. intros s Hs. split; [done|]. done.
Qed.
Lemma op_get_or_stopped umask : striple I P (sandbox_get_or_stopped umask storage name)
  (λ sb s, P s ∧ sb_storage sb = storage ∧ sb_name sb = name).
Proof.
  unfold sandbox_get_or_stopped. eapply st_bind; [apply op_get|]. intros o.
  apply st_ret.
  - intros s [Hs _]. by apply inv_frame.
  - intros s [Hs Ho]. split; [done|]. destruct o as [sb|]; [by apply Ho|done].
Qed.

(** Details needed for the processes. *)
Lemma open_cases umask s : P s →
  (∃ e, lift_fs (sys_open_create umask lockp) s = SOut [] s (Err e) ∧
     ∃ n, s_fs s !! lockp = Some n ∧ n_kind n = KDir) ∨
  ∃ tr s1, lift_fs (sys_open_create umask lockp) s = SOut tr s1 (Ok tt) ∧ P s1 ∧
     s_procs s1 = s_procs s ∧ s_mounts s1 = s_mounts s ∧
     (∀ q, q ≠ lockp → s_fs s1 !! q = s_fs s !! q) ∧
     Forall (λ t, s_procs t = s_procs s) tr ∧ ∃ n, s_fs s1 !! lockp = Some n ∧ n_kind n ≠ KDir.
Proof.
  intros Hs. pose proof (inv_frame s Hs) as Hf. destruct (op_open umask s Hs) as (_ & _ & Hok).
  revert Hok. unfold lift_fs, sys_open_create. rewrite lookup_f_dirpath; [|by apply frame_lock|by apply Hs].
  destruct (s_fs s !! lockp) as [n|] eqn:E.
  - destruct (is_kdir (n_kind n)) eqn:Ek; cbn [o_trace o_fs o_res fail_ fmap list_fmap so_res so_sys];
      rewrite set_fs_id; intros Hok.
    + left. eexists. split; [done|]. exists n. split; [done|]. by destruct (n_kind n).
    + right. eexists _, _. split; [done|]. destruct (Hok tt eq_refl) as [H H']. rewrite E in H' |- *.
      exact (conj H (conj eq_refl (conj eq_refl (conj (λ q _, eq_refl) (conj (Forall_nil_2 _) H'))))).
  - cbn [o_trace o_fs o_res emit fmap list_fmap so_res so_sys]. intros Hok. right. eexists _, _.
    split; [done|]. destruct (Hok tt eq_refl) as [H H']. split; [done|]. split; [done|]. split; [done|].
    split; [|split; [by constructor|exact H']]. intros q Hq. simpl. by rewrite lookup_insert_ne.
Qed.
Lemma read_pid s : P s → read_file (s_fs s) pidp =
  match s_fs s !! pidp with
  | Some n => match n_kind n with KFile c => Ok c | KDir => Err EISDIR | _ => Err (EApp "special file") end
  | None => Err ENOENT
  end.
Proof.
  intros Hs. unfold read_file. rewrite stat_dirpath; [|apply frame_pid; by apply inv_frame|by apply Hs].
  by destruct (s_fs s !! pidp).
Qed.
Lemma recorded_same s t : P s → P t → s_procs t = s_procs s → s_fs t !! pidp = s_fs s !! pidp →
  recorded_pid t storage name = recorded_pid s storage name.
Proof.
  intros Hs Ht Ep Ef. unfold recorded_pid. rewrite !read_pid by done. rewrite Ef.
  unfold proc_of. by rewrite Ep.
Qed.
Lemma base_exists s : P s → exists_ (s_fs s) base = bool_decide (is_Some (s_fs s !! base)).
Proof.
  intros Hs. unfold exists_. rewrite stat_dirpath; [|apply frame_base; by apply inv_frame|by apply Hs].
  by destruct (s_fs s !! base).
Qed.
Lemma base_ne_lock : base ≠ lockp.
Proof. intros E. pose proof (lock_outside storage name) as H. by rewrite <-E, under_refl in H. Qed.
Lemma recorded_none s : P s → s_fs s !! pidp = None → recorded_pid s storage name = None.
Proof. intros Hs E. unfold recorded_pid. rewrite read_pid by done. by rewrite E. Qed.

Lemma running_cases s : P s → ∃ tr s1,
  get_running_sandbox_pid storage name s = SOut tr s1 (Ok (recorded_pid s storage name)) ∧
  ((s_fs s1 !! pidp = s_fs s !! pidp ∨ s_fs s1 !! pidp = None) ∧ s_mounts s1 = s_mounts s ∧
   ∀ q, q ≠ pidp → s_fs s1 !! q = s_fs s !! q) ∧
  s_procs s1 = s_procs s ∧ Forall (λ t, s_procs t = s_procs s) tr.
Proof.
  intros Hs. unfold get_running_sandbox_pid. rewrite pid_exists by done.
  case_bool_decide as E.
  - destruct (recorded_pid s storage name) as [z|] eqn:Ez.
    + eexists _, _. split; [reflexivity|]. split; [split; [by left|done]|]. done.
    + unfold sbind, ignore_err. cbn [so_trace so_sys so_res].
      eexists _, _. split; [reflexivity|]. cbn [so_trace so_sys so_res sret].
      split.
      { unfold lift_fs. cbn [so_sys]. pose proof (inv_frame s Hs) as Hf.
        destruct (unlink_cases (s_fs s) pidp) as [[e ->]|(n & _ & _ & _ & _ & -> & _)];
          [apply Hf|by apply dirpath_nolink, frame_pid|split; [by left|done]|].
        cbn [o_fs emit set_fs s_fs s_mounts].
        split; [right; by rewrite lookup_delete|]. split; [done|]. intros q Hq. by rewrite lookup_delete_ne. }
      split; [done|]. rewrite app_nil_r. apply Forall_fmap. by apply Forall_true.
  - apply eq_None_not_Some in E. rewrite (recorded_none s Hs E).
    eexists _, _. split; [reflexivity|]. split; [split; [by left|done]|]. done.
Qed.
Definition the_sandbox (s : sys) : sandbox :=
  Sandbox storage name (if bool_decide (is_Some (s_fs s !! base)) then recorded_pid s storage name else None).
Lemma get_cases umask s : P s →
  (∃ e, sandbox_get_or_stopped umask storage name s = SOut [] s (Err e) ∧
     ∃ n, s_fs s !! lockp = Some n ∧ n_kind n = KDir) ∨
  ∃ tr s1, sandbox_get_or_stopped umask storage name s = SOut tr s1 (Ok (the_sandbox s)) ∧
     P s1 ∧ s_procs s1 = s_procs s ∧ Forall (λ t, s_procs t = s_procs s) tr ∧
     (s_fs s1 !! pidp = s_fs s !! pidp ∨ s_fs s1 !! pidp = None) ∧
     s_mounts s1 = s_mounts s ∧ (∀ q, q ≠ pidp → q ≠ lockp → s_fs s1 !! q = s_fs s !! q) ∧
     ∃ n, s_fs s1 !! lockp = Some n ∧ n_kind n ≠ KDir.
Proof.
  intros Hs. destruct (op_get_or_stopped umask s Hs) as (_ & _ & Hok).
  cut ((∃ e, sandbox_get_or_stopped umask storage name s = SOut [] s (Err e) ∧
     ∃ n, s_fs s !! lockp = Some n ∧ n_kind n = KDir) ∨
  ∃ tr s1, sandbox_get_or_stopped umask storage name s = SOut tr s1 (Ok (the_sandbox s)) ∧
     s_procs s1 = s_procs s ∧ Forall (λ t, s_procs t = s_procs s) tr ∧
     (s_fs s1 !! pidp = s_fs s !! pidp ∨ s_fs s1 !! pidp = None) ∧
     s_mounts s1 = s_mounts s ∧ (∀ q, q ≠ pidp → q ≠ lockp → s_fs s1 !! q = s_fs s !! q) ∧
     ∃ n, s_fs s1 !! lockp = Some n ∧ n_kind n ≠ KDir).
  { intros [H|(tr & s1 & E & H1 & H2)]; [by left|]. right. exists tr, s1. rewrite E in Hok.
    destruct (Hok _ eq_refl) as [A _]. done. }
  clear Hok. unfold sandbox_get_or_stopped, sandbox_get, the_sandbox.
  destruct (open_cases umask s Hs) as [(e & Eo & n & Hn & Hk)|(tr & s1 & Eo & Hs1 & Ep & Em & Ef & Htr & nl & Hnl & Hnk)].
  - left. exists e. split; [|by exists n]. apply sbind_err. by apply sbind_err.
  - right. 
    assert (∃ tr2 s2, sbind (sget (λ s, Ok (exists_ (s_fs s) base))) (λ there, if negb there then sret None else
      sbind (get_running_sandbox_pid storage name) (λ p, match p with
        | Some z => sret (Some (Sandbox storage name (Some z))) | None => sret None end)) s1 =
      SOut tr2 s2 (Ok (if bool_decide (is_Some (s_fs s !! base)) then
        (λ z, Sandbox storage name (Some z)) <$> recorded_pid s storage name else None)) ∧
      s_procs s2 = s_procs s ∧ Forall (λ t, s_procs t = s_procs s) tr2 ∧
      (s_fs s2 !! pidp = s_fs s !! pidp ∨ s_fs s2 !! pidp = None) ∧
      s_mounts s2 = s_mounts s ∧ (∀ q, q ≠ pidp → q ≠ lockp → s_fs s2 !! q = s_fs s !! q) ∧
      ∃ n, s_fs s2 !! lockp = Some n ∧ n_kind n ≠ KDir) as (tr2 & s2 & E2 & Ep2 & Htr2 & Hpid2).
    { assert (s_fs s1 !! pidp = s_fs s !! pidp) as Epid.
      { apply Ef. intros E. symmetry in E. by apply lock_ne_pid in E. }
      unfold sbind at 1, sget. cbn [so_trace so_sys so_res]. rewrite base_exists by done.
      rewrite Ef by apply base_ne_lock. case_bool_decide as Eb; cbn [negb].
      - destruct (running_cases s1 Hs1) as (tr2 & s2 & Er & (Hpid & Hm2 & Hf2) & Ep2 & Htr2). rewrite Epid in Hpid.
        rewrite (recorded_same s s1 Hs Hs1 Ep Epid) in Er.
        rewrite (sbind_ok _ _ _ _ _ _ Er).
        assert (Forall (λ t, s_procs t = s_procs s) tr2) as Htr2'.
        { eapply Forall_impl; [exact Htr2|]. simpl. intros t ->. done. }
        destruct (recorded_pid s storage name) as [z|]; cbn [so_trace so_sys so_res sret fmap option_fmap option_map];
          rewrite app_nil_r; (eexists _, _; split; [reflexivity|]); (split; [congruence|]);
          (split; [done|]); (split; [done|]); (split; [congruence|]);
          (split; [intros q Hq1 Hq2; rewrite Hf2, Ef by done; done|]); exists nl; (split; [|done]);
          (rewrite Hf2; [exact Hnl|by apply lock_ne_pid]).
      - eexists _, _. split; [reflexivity|]. split; [done|]. split; [constructor|]. split; [by left|]. split; [done|].
        split; [intros q _ Hq; by apply Ef|]. by exists nl. }
    pose proof (sbind_ok _ (λ _ : unit, sbind (sget (λ s, Ok (exists_ (s_fs s) base))) (λ there, if negb there then sret None else
      sbind (get_running_sandbox_pid storage name) (λ p, match p with
        | Some z => sret (Some (Sandbox storage name (Some z))) | None => sret None end))) _ _ _ _ Eo) as E3.
    cbv beta in E3. rewrite E2 in E3. cbn [so_trace so_sys so_res] in E3.
    rewrite (sbind_ok _ _ _ _ _ _ E3). cbn [so_trace so_sys so_res sret]. rewrite app_nil_r.
    match goal with |- ∃ _ _, SOut _ _ (Ok ?a) = SOut _ _ (Ok ?b) ∧ _ => assert (a = b) as -> end.
    { case_bool_decide; [|done]. by destruct (recorded_pid s storage name). }
    eexists _, _. split; [reflexivity|]. split; [exact Ep2|].
    split; [by apply Forall_app|done].
Qed.
End Ops.

(** The surroundings in which the program is meant to work: a proper tree, the storage directory is a
    real directory, the name is a legal file name, the sandbox's own files are not symbolic links, what
    the mounts below the sandbox cover are directories. *)
Record tidy (storage : path) (name : string) (s : sys) : Prop := {
  td_wf : wf_tree (s_fs s);
  td_storage : is_dir_at (s_fs s) storage;
  td_name : comp_ok name;
  td_base : not_link (s_fs s) (base_of storage name);
  td_lock : not_link (s_fs s) (lock_of storage name);
  td_pid : not_link (s_fs s) (pid_of storage name);
  td_mounts : mounts_ok (base_of storage name) s;
}.
Lemma tidy_inv (storage : path) (name : string) (s : sys) : tidy storage name s → Inv storage name (s_fs s) s.
Proof. intros [H1 H2 H3 H4 H5 H6 H7]. split; try done. split; [done|done|]. by left. Qed.

(** The recorded process, in terms of the pid file: a decimal number, the pid of a process. *)
Definition recorded_process (s : sys) (storage : path) (name : string) (r : proc) : Prop :=
  ∃ n c z, s_fs s !! pid_of storage name = Some n ∧ n_kind n = KFile c ∧
    parse_i32 c = Some z ∧ (0 < z)%Z ∧ s_procs s !! Z.to_N z = Some r.

Lemma proc_of_some (s : sys) (z : Z) (p : proc) : proc_of s z = Some p → (0 < z)%Z ∧ s_procs s !! Z.to_N z = Some p.
Proof.
  unfold proc_of. destruct (Z.leb z 0) eqn:E; [done|]. intros H. split; [|done]. apply Z.leb_gt in E. done.
Qed.
Lemma unmount_procs (busy : path → bool) (b : path) (s : sys) :
  Forall (λ t, s_procs t = s_procs s) (so_trace (unmount busy b s)) ∧
  s_procs (so_sys (unmount busy b s)) = s_procs s ∧ so_res (unmount busy b s) = Ok tt.
Proof.
  unfold unmount. generalize (mounts_below s b) as l. intros l.
  assert (∀ t, s_procs t = s_procs s →
    Forall (λ t, s_procs t = s_procs s) (so_trace (sfor l (λ p, ignore_err (sys_umount busy p)) t)) ∧
    s_procs (so_sys (sfor l (λ p, ignore_err (sys_umount busy p)) t)) = s_procs s ∧
    so_res (sfor l (λ p, ignore_err (sys_umount busy p)) t) = Ok tt) as H; [|by apply H].
  induction l as [|p l IH]; intros t Ht; [by repeat split; [constructor|..]|].
  assert (Forall (λ t, s_procs t = s_procs s) (so_trace (sys_umount busy p t)) ∧
          s_procs (so_sys (sys_umount busy p t)) = s_procs s) as [A B].
  { unfold sys_umount. destruct (busy p); [by split; [constructor|]|].
    destruct (pop_mount p (s_mounts t)) as [[m l']|]; [|by split; [constructor|]].
    cbn [so_trace so_sys s_procs]. split; [by repeat constructor|done]. }
  cbn [sfor]. unfold sbind. unfold ignore_err at 1 4 7. cbn [so_trace so_sys so_res].
  destruct (IH _ B) as (C1 & C2 & C3). split; [by apply Forall_app|]. done.
Qed.
Lemma remove_pid_procs (storage : path) (name : string) (s : sys) :
  Forall (λ t, s_procs t = s_procs s) (so_trace (remove_pid_file storage name s)) ∧
  s_procs (so_sys (remove_pid_file storage name s)) = s_procs s.
Proof.
  unfold remove_pid_file. destruct (exists_ (s_fs s) (pid_of storage name)); [|by split; [constructor|]].
  unfold lift_fs. cbn [so_trace so_sys]. split; [|done]. apply Forall_fmap. by apply Forall_true.
Qed.
(** Sequencing: what the later steps do to the processes. *)
Lemma sbind_procs {A B : Type} (R : sys → Prop) (m : S_ A) (k : A → S_ B) (s : sys) :
  Forall R (so_trace (m s)) → R (so_sys (m s)) →
  (∀ a, so_res (m s) = Ok a → Forall R (so_trace (k a (so_sys (m s)))) ∧ R (so_sys (k a (so_sys (m s))))) →
  Forall R (so_trace (sbind m k s)) ∧ R (so_sys (sbind m k s)).
Proof.
  intros H1 H2 H3. unfold sbind. destruct (so_res (m s)) as [a|e]; cbn [so_trace so_sys]; [|done].
  destruct (H3 a eq_refl) as [A1 A2]. split; [by apply Forall_app|done].
Qed.

(** [t] is [s] except that processes of the namespace of the recorded process may be missing. *)
Definition attributed (s : sys) (storage : path) (name : string) (t : sys) : Prop :=
  (∀ k p, s_procs t !! k = Some p → s_procs s !! k = Some p) ∧
  (∀ k p, s_procs s !! k = Some p → s_procs t !! k = None →
     ∃ r, recorded_process s storage name r ∧ in_ns (p_children r) p = true).
(** Stopping a sandbox, followed by something that leaves the processes alone. *)
Lemma stop_attributed {A : Type} (umask : N) (ord : list N → list N) (storage : path) (name : string) (s : sys)
    (rest : sandbox → S_ A) :
  (∀ sb u, Forall (λ t, s_procs t = s_procs u) (so_trace (rest sb u)) ∧ s_procs (so_sys (rest sb u)) = s_procs u) →
  tidy storage name s →
  let m := sbind (sandbox_get_or_stopped umask storage name) (λ sb, sbind (sandbox_stop ord sb) (λ _, rest sb)) in
  Forall (attributed s storage name) (so_trace (m s)) ∧ attributed s storage name (so_sys (m s)).
Proof.
  intros Hrest Hs m. pose proof (tidy_inv _ _ _ Hs) as HI.
  set (R := attributed s storage name).
  assert (∀ t, s_procs t = s_procs s → R t) as Hsame.
  { intros t E. unfold R, attributed. rewrite E. split; [done|]. intros k p H1 H2. congruence. }
  assert (∀ t u, R t → s_procs u = s_procs t → R u) as Htr by (intros t u H E; unfold R, attributed; by rewrite E).
  destruct (get_cases storage name (s_fs s) (td_storage _ _ _ Hs) (td_name _ _ _ Hs) umask s HI)
    as [(e & E & _)|(tr & s1 & E & HI1 & Ep & Htrace & _)].
  { unfold m. rewrite (sbind_err _ _ _ _ _ _ E). cbn [so_trace so_sys].
    split; [constructor|]. by apply Hsame. }
  unfold m. rewrite (sbind_ok _ _ _ _ _ _ E). cbn [so_trace so_sys so_res].
  set (sb := the_sandbox storage name s).
  assert (Forall R (so_trace (stop_processes ord (sb_pid sb) s1)) ∧ R (so_sys (stop_processes ord (sb_pid sb) s1))) as [K1 K2].
  { unfold stop_processes.
    assert (∀ v, Forall R (so_trace (sret v s1)) ∧ R (so_sys (sret (A := unit) v s1))) as Hret
      by (intros v; split; [constructor|by apply Hsame]).
    destruct (sb_pid sb) as [z|] eqn:Ez; [|apply Hret].
    destruct (proc_of s1 z) as [r|] eqn:Er; [|apply Hret].
    destruct (String.eqb (p_state r) "Z"); [apply Hret|].
    assert (recorded_process s storage name r) as Hrec.
    { apply proc_of_some in Er as [Hz Er]. rewrite Ep in Er.
      unfold sb, the_sandbox in Ez. cbn [sb_pid] in Ez. destruct (bool_decide _); [|done].
      unfold recorded_pid in Ez. rewrite (read_pid storage name (s_fs s) (td_storage _ _ _ Hs) (td_name _ _ _ Hs) s HI) in Ez.
      destruct (s_fs s !! pid_of storage name) as [n|] eqn:En; [|done].
      destruct (n_kind n) as [c| | | | | |] eqn:Ek; try done.
      destruct (utf8_valid c); [|done]. destruct (parse_i32 c) as [z'|] eqn:Epa; [|done].
      cbn [mbind option_bind] in Ez. destruct (proc_of s z'); [|done]. cbn [mbind option_bind] in Ez.
      destruct (split_whitespace _ !! 2) as [w|]; [|done]. cbn [mbind option_bind] in Ez.
      destruct (_ || _)%bool; [done|]. injection Ez as ->. by exists n, c, z. }
    destruct (stop_loop_only (p_children r) (ord (pids s1)) s1) as [L1 L2].
    assert (∀ t, kills_only (p_children r) s1 t → R t) as HR.
    { intros t (_ & _ & Ha & Hb). rewrite Ep in Ha, Hb. split; [done|]. intros k p Hk Hn. exists r.
      split; [done|]. destruct (in_ns (p_children r) p) eqn:Ei; [done|]. rewrite (Hb k p Hk Ei) in Hn. done. }
    split; [|by apply HR]. eapply Forall_impl; [exact L1|done]. }
  assert (Forall R tr) as Htr'.
  { eapply Forall_impl; [exact Htrace|]. intros t Et. by apply Hsame. }
  match goal with |- Forall R (tr ++ so_trace ?x) ∧ _ => assert (Forall R (so_trace x) ∧ R (so_sys x)) as [A' B'] end.
  2: { split; [by apply Forall_app|exact B']. }
  assert (Forall R (so_trace (sandbox_stop ord sb s1)) ∧ R (so_sys (sandbox_stop ord sb s1))) as [D1 D2].
  { unfold sandbox_stop. apply sbind_procs; [done|done|]. intros [] _.
    destruct (remove_pid_procs (sb_storage sb) (sb_name sb) (so_sys (stop_processes ord (sb_pid sb) s1))) as [C1 C2].
    split; [|by eapply Htr]. eapply Forall_impl; [exact C1|]. intros t Et. by eapply Htr. }
  apply sbind_procs; [exact D1|exact D2|]. intros [] _.
  destruct (Hrest sb (so_sys (sandbox_stop ord sb s1))) as (C1 & C2).
  split; [|by eapply Htr]. eapply Forall_impl; [exact C1|]. intros t Et. by eapply Htr.
Qed.

(** *** C43, first half: whatever the state of the pid file and of the process table, whatever the
    moment, only processes of the namespace of the recorded process are missing. In particular
    nothing is killed if no live process is recorded. *)
Theorem C43_kills_only_recorded_namespace (umask : N) (ord : list N → list N) (busy : path → bool)
    (storage : path) (name : string) (s t : sys) :
  tidy storage name s →
  t ∈ so_sys (stop_action umask ord busy storage name s) :: so_trace (stop_action umask ord busy storage name s) →
  (∀ k p, s_procs t !! k = Some p → s_procs s !! k = Some p) ∧
  (∀ k p, s_procs s !! k = Some p → s_procs t !! k = None →
     ∃ r, recorded_process s storage name r ∧ in_ns (p_children r) p = true).
Proof.
  intros Hs Ht.
  destruct (stop_attributed umask ord storage name s (λ _, unmount busy (base_of storage name))) as [A B];
    [|done|].
  { intros _ u. by destruct (unmount_procs busy (base_of storage name) u) as (C1 & C2 & _). }
  apply elem_of_cons in Ht as [-> |Ht]; [exact B|].
  rewrite Forall_forall in A. exact (A t Ht).
Qed.
Print Assumptions C43_kills_only_recorded_namespace.

(** *** C43 in full. [ns] is the process namespace made when the sandbox was last started, [i] the pid
    of its first process, as written to the pid file. Either that process lives, as process 1 of [ns];
    or the sandbox has ended, nobody is in [ns], and the number [i] may since have been given to any
    other process. *)
Definition sandbox_files (s : sys) (storage : path) (name : string) (i : N) : Prop :=
  is_dir_at (s_fs s) (base_of storage name) ∧
  (∀ n, s_fs s !! lock_of storage name = Some n → n_kind n ≠ KDir) ∧
  (i ≤ 2147483647)%N ∧
  ∃ n, s_fs s !! pid_of storage name = Some n ∧ n_kind n = KFile (show_pid i).
Definition nobody_in (s : sys) (ns : N) : Prop := ∀ k p, s_procs s !! k = Some p → in_ns ns p = false.
(** Afterwards exactly the processes outside [ns] are left and there is no pid file. *)
Definition stopped (s s' : sys) (storage : path) (name : string) (ns : N) : Prop :=
  (∀ k p, s_procs s' !! k = Some p ↔ s_procs s !! k = Some p ∧ in_ns ns p = false) ∧
  s_fs s' !! pid_of storage name = None.

Definition C43_full : Prop := ∀ umask ord busy storage name s ns i,
  (∀ l, ord l ≡ₚ l) → tidy storage name s → sandbox_files s storage name i → (0 < i)%N →
  (∃ p, s_procs s !! i = Some p ∧ sandbox_init ns p) ∨ nobody_in s ns →
  so_res (stop_action umask ord busy storage name s) = Ok tt ∧
  stopped s (so_sys (stop_action umask ord busy storage name s)) storage name ns.

(** Proved if every process of the namespace has a UTF-8 command line, the first one is not stopped
    (state T) and has no white space in its name; and, for a sandbox that has ended, if its number
    has not been given to another process. *)
Theorem C43_stop_kills_exactly_the_sandbox_partial (umask : N) (ord : list N → list N) (busy : path → bool)
    (storage : path) (name : string) (s : sys) (ns i : N) :
  (∀ l, ord l ≡ₚ l) → tidy storage name s → sandbox_files s storage name i → (0 < i)%N →
  (∃ p, s_procs s !! i = Some p ∧ sandbox_init ns p ∧ alive_ok ns s ∧
     no_ws (p_comm p) = true ∧ no_ws (p_state p) = true ∧ p_state p ≠ "" ∧ p_state p ≠ "T") ∨
  (nobody_in s ns ∧ s_procs s !! i = None) →
  so_res (stop_action umask ord busy storage name s) = Ok tt ∧
  stopped s (so_sys (stop_action umask ord busy storage name s)) storage name ns.
Proof.
  intros Hord Hs ((bn & Hb & Hbk) & Hlock & Hi & n & Hn & Hk) Hpos Hcase. pose proof (tidy_inv _ _ _ Hs) as HI.
  pose proof (td_storage _ _ _ Hs) as Hst. pose proof (td_name _ _ _ Hs) as Hnm.
  destruct (get_cases storage name (s_fs s) Hst Hnm umask s HI)
    as [(e & E & n' & Hn' & Hk')|(tr & s1 & E & HI1 & Ep & Htrace & Hpid & _)].
  { by destruct (Hlock n' Hn' Hk'). }
  unfold stop_action. rewrite (sbind_ok _ _ _ _ _ _ E). cbn [so_trace so_sys so_res].
  set (sb := the_sandbox storage name s).
  assert (so_res (stop_processes ord (sb_pid sb) s1) = Ok tt ∧
          s_fs (so_sys (stop_processes ord (sb_pid sb) s1)) = s_fs s1 ∧
          ∀ k p, s_procs (so_sys (stop_processes ord (sb_pid sb) s1)) !! k = Some p ↔
                 s_procs s !! k = Some p ∧ in_ns ns p = false) as (S1 & S2 & S3).
  { assert (sb_pid sb = recorded_pid s storage name) as Epid.
    { unfold sb, the_sandbox. cbn [sb_pid]. by rewrite Hb, bool_decide_eq_true_2. }
    rewrite Epid. unfold recorded_pid.
    rewrite (read_pid storage name (s_fs s) Hst Hnm s HI), Hn, Hk, show_utf8, (parse_show i Hi).
    cbn [mbind option_bind].
    assert (∀ t, proc_of t (Z.of_N i) = s_procs t !! i) as Hproc.
    { intros t. unfold proc_of. assert (Z.leb (Z.of_N i) 0 = false) as -> by (apply Z.leb_gt; lia).
      by rewrite N2Z.id. }
    rewrite Hproc.
    destruct Hcase as [(p & Hp & Hinit & Hcmd & Hc1 & Hc2 & Hc3 & HT)|[Hno Hp]].
    - rewrite Hp. cbn [mbind option_bind]. rewrite stat_state by done. cbn [mbind option_bind].
      destruct Hinit as (Hp1 & Hch & Hz & Hnss) eqn:Einit.
      assert (String.eqb (p_state p) "Z" = false) as EZ by (by apply String.eqb_neq).
      assert (String.eqb (p_state p) "T" = false) as ET by (by apply String.eqb_neq).
      rewrite EZ, ET. cbn [orb]. unfold stop_processes. rewrite Hproc, Ep, Hp, EZ, Hch.
      assert (alive_ok ns s1) as Hcmd1.
      { intros k q Hkq. rewrite Ep in Hkq. exact (Hcmd k q Hkq). }
      destruct (stop_loop_done ns i p (ord (pids s1)) s1 Hcmd1) as (D1 & D2 & _);
        [left; by rewrite Ep|exact Hinit|].
      destruct (stop_loop_only ns (ord (pids s1)) s1) as [_ (F1 & F2 & F3 & F4)].
      rewrite Ep in F3, F4.
      split; [exact D1|]. split; [exact F1|]. intros k q. split.
      + intros Hkq. split; [by apply F3|]. apply (D2 ltac:(idtac; rewrite Hord; unfold pids; apply elem_of_list_fmap; exists (i, p); split; [done|]; apply elem_of_map_to_list; by rewrite Ep) k q Hkq).
      + intros [A B]. by apply F4.
    - rewrite Hp. cbn [mbind option_bind]. cbn [stop_processes sret so_res so_sys].
      split; [done|]. split; [done|]. intros k p. rewrite Ep. split; [|by intros [A _]].
      intros A. split; [done|]. by eapply Hno. }
  assert (∃ tr2 s2, sandbox_stop ord sb s1 = SOut tr2 s2 (Ok tt) ∧ s_fs s2 !! pid_of storage name = None ∧
    s_procs s2 = s_procs (so_sys (stop_processes ord (sb_pid sb) s1)) ∧ Inv storage name (s_fs s) s2)
    as (tr2 & s2 & E2 & Hp2 & Hpr2 & HI2).
  { unfold sandbox_stop.
    destruct (op_stop_processes storage name (s_fs s) ord (sb_pid sb) s1 HI1) as (_ & _ & Q1).
    specialize (Q1 tt S1). revert S1 S2 Q1. set (s3 := stop_processes ord (sb_pid sb) s1). intros S1 S2 Q1.
    change (sb_storage sb) with storage. change (sb_name sb) with name.
    destruct (op_remove_pid storage name (s_fs s) Hst Hnm (so_sys s3) Q1) as (_ & _ & Q2).
    assert (so_res (remove_pid_file storage name (so_sys s3)) = Ok tt) as Hr.
    { unfold remove_pid_file. rewrite (pid_exists storage name (s_fs s) Hst Hnm (so_sys s3) Q1).
      case_bool_decide as Ex; [|done].
      rewrite S2 in Ex. destruct Hpid as [Hpid|Hpid]; [|rewrite Hpid in Ex; by destruct Ex].
      unfold lift_fs. rewrite (unlink_ok _ _ n).
      - done.
      - apply (frame_pid storage name (s_fs s) Hst Hnm). by apply inv_frame.
      - by rewrite S2, Hpid.
      - by rewrite Hk. }
    unfold sbind. fold s3. rewrite S1. cbv zeta. rewrite Hr.
    destruct (Q2 tt Hr) as [Q3 Q4].
    eexists _, _. split; [reflexivity|]. split; [exact Q4|]. split; [|exact Q3].
    by destruct (remove_pid_procs storage name (so_sys s3)) as [_ ->]. }
  rewrite (sbind_ok _ _ _ _ _ _ E2). cbn [so_trace so_sys so_res].
  destruct (unmount_procs busy (base_of storage name) s2) as (_ & U2 & U3).
  split; [exact U3|]. split.
  - intros k p. rewrite U2, Hpr2. apply S3.
  - destruct (op_unmount storage name (s_fs s) Hst busy None s2 (conj HI2 Hp2)) as (_ & _ & V).
    by destruct (V tt U3).
Qed.
Print Assumptions C43_stop_kills_exactly_the_sandbox_partial.

(** A machine with the sandbox "a": its first process 4242 and a command 4250 in namespace 7. *)
Definition run_fs : fs :=
  <[["home"; ".sandboxes"; "a.pid"] := Node (KFile "4242") 420 0 0 1 ∅]> home_fs.
Definition host_proc (name : string) : proc := Proc [0%N] 0 false name "S" name.
Definition systemd : proc := Proc [0%N] 0 true "systemd" "S" "/sbin/init".
Definition run_procs (cmd : string) : gmap N proc :=
  list_to_map [(1%N, systemd); (900%N, host_proc "editor");
    (4242%N, Proc [7%N; 0%N] 7 true "sandbox" "S" "sandbox");
    (4250%N, Proc [7%N; 0%N] 7 false "cmd" "S" cmd)].
Definition run_sys (cmd : string) : sys := Sys run_fs (run_procs cmd) [].
(** The sandbox has ended; 4242 is now a process of the host. *)
Definition stale_sys : sys :=
  Sys run_fs (list_to_map [(1%N, systemd); (900%N, host_proc "editor"); (4242%N, host_proc "mailer")]) [].

Definition not_linkb (f : fs) (p : path) : bool :=
  match f !! p with Some n => negb (is_klink (n_kind n)) | None => true end.
Lemma not_linkb_spec (f : fs) (p : path) : not_linkb f p = true → not_link f p.
Proof. unfold not_linkb. intros H n Hn. rewrite Hn in H. by apply negb_true_iff in H. Qed.
Definition mounts_okb (base : path) (s : sys) : bool :=
  forallb (λ m, negb (under base (mt_at m)) ||
    (bool_decide (is_Some (s_fs s !! mt_at m)) && is_kdir (n_kind (mt_under m)) && N.ltb (n_perm (mt_under m)) 4096))%bool
    (s_mounts s).
Lemma mounts_okb_spec (base : path) (s : sys) : mounts_okb base s = true → mounts_ok base s.
Proof.
  intros H m Hm Hu. unfold mounts_okb in H. rewrite forallb_forall in H.
  apply elem_of_list_In in Hm. specialize (H m Hm). rewrite Hu in H. cbn [negb orb] in H.
  apply andb_true_iff in H as [H H3]. apply andb_true_iff in H as [H1 H2].
  apply bool_decide_eq_true in H1. apply is_kdir_true in H2. apply N.ltb_lt in H3. done.
Qed.
Definition tidyb (storage : path) (name : string) (s : sys) : bool :=
  (wf_treeb (s_fs s) && dirb (s_fs s) storage && comp_okb name && not_linkb (s_fs s) (base_of storage name) &&
   not_linkb (s_fs s) (lock_of storage name) && not_linkb (s_fs s) (pid_of storage name) &&
   mounts_okb (base_of storage name) s)%bool.
Lemma tidyb_spec (storage : path) (name : string) (s : sys) : tidyb storage name s = true → tidy storage name s.
Proof.
  unfold tidyb. rewrite !andb_true_iff. intros [[[[[[H1 H2] H3] H4] H5] H6] H7]. split.
  - by apply wf_treeb_spec.
  - by apply dirb_spec.
  - by apply comp_okb_spec.
  - by apply not_linkb_spec.
  - by apply not_linkb_spec.
  - by apply not_linkb_spec.
  - by apply mounts_okb_spec.
Qed.
Lemma run_files (s : sys) : s_fs s = run_fs → sandbox_files s home_storage "a" 4242.
Proof.
  intros E. unfold sandbox_files. rewrite E. split; [|split; [|split]].
  - apply dirb_spec. vm_compute. reflexivity.
  - intros n Hn. vm_compute in Hn. injection Hn as <-. discriminate.
  - lia.
  - eexists. split; [vm_compute; reflexivity|]. reflexivity.
Qed.
Definition same_order (l : list N) : list N := l.
Lemma same_order_perm (l : list N) : same_order l ≡ₚ l.
Proof. done. Qed.

(** A stale pid file whose number was given to another process: that process and all other processes
    of the host's namespace are killed. *)
Theorem C43_refuted : ¬ C43_full.
Proof.
  intros H. destruct (H 18%N same_order (λ _, false) home_storage "a" stale_sys 7%N 4242%N same_order_perm) as [_ [K _]].
  - apply tidyb_spec. vm_compute. reflexivity.
  - apply run_files. reflexivity.
  - lia.
  - right. intros k p Hk. cbn [stale_sys s_procs] in Hk. apply elem_of_list_to_map_2 in Hk.
    repeat (apply elem_of_cons in Hk as [Hk|Hk]; [injection Hk as _ ->; reflexivity|]).
    by apply elem_of_nil in Hk.
  - destruct (K 900%N (host_proc "editor")) as [_ K2].
    assert (s_procs (so_sys (stop_action 18 same_order (λ _, false) home_storage "a" stale_sys)) !! 900%N = None) as E
      by (vm_compute; reflexivity).
    rewrite E in K2. discriminate K2. split; vm_compute; reflexivity.
Qed.
Print Assumptions C43_refuted.
(** Even restricted to a sandbox that is running the claim is false: a process of the sandbox whose
    command line is not UTF-8 makes the command fail, here with every process still running. *)
Definition C43_running : Prop := ∀ umask ord busy storage name s ns i p,
  (∀ l, ord l ≡ₚ l) → tidy storage name s → sandbox_files s storage name i → (0 < i)%N →
  s_procs s !! i = Some p → sandbox_init ns p →
  so_res (stop_action umask ord busy storage name s) = Ok tt ∧
  stopped s (so_sys (stop_action umask ord busy storage name s)) storage name ns.
Theorem C43_unkillable_refuted : ¬ C43_running.
Proof.
  intros H.
  destruct (H 18%N (λ l, reverse l) (λ _, false) home_storage "a" (run_sys (String "255" "")) 7%N 4242%N
    (Proc [7%N; 0%N] 7 true "sandbox" "S" "sandbox")) as [K _].
  - apply reverse_Permutation.
  - apply tidyb_spec. vm_compute. reflexivity.
  - apply run_files. reflexivity.
  - lia.
  - vm_compute. reflexivity.
  - split; [reflexivity|]. split; [reflexivity|]. split; [discriminate|]. by exists 0%N, [].
  - vm_compute in K. discriminate K.
Qed.
Print Assumptions C43_unkillable_refuted.
Example C43_unkillable_all_alive :
  s_procs (so_sys (stop_action 18 (λ l, reverse l) (λ _, false) home_storage "a" (run_sys (String "255" "")))) =
    run_procs (String "255" "").
Proof. vm_compute. reflexivity. Qed.

Example C43_nonvacuous :
  so_res (stop_action 18 same_order (λ _, false) home_storage "a" (run_sys "sleep")) = Ok tt ∧
  stopped (run_sys "sleep") (so_sys (stop_action 18 same_order (λ _, false) home_storage "a" (run_sys "sleep")))
    home_storage "a" 7 ∧
  s_procs (so_sys (stop_action 18 same_order (λ _, false) home_storage "a" (run_sys "sleep"))) !! 4250%N = None ∧
  recorded_process (run_sys "sleep") home_storage "a" (Proc [7%N; 0%N] 7 true "sandbox" "S" "sandbox").
Proof.
  assert (tidy home_storage "a" (run_sys "sleep")) as Ht by (apply tidyb_spec; vm_compute; reflexivity).
  pose proof (C43_stop_kills_exactly_the_sandbox_partial 18 same_order (λ _, false) home_storage "a" (run_sys "sleep")
    7 4242 same_order_perm Ht (run_files (run_sys "sleep") eq_refl)) as H.
  destruct H as [A B].
  - lia.
  - left. exists (Proc [7%N; 0%N] 7 true "sandbox" "S" "sandbox"). split; [vm_compute; reflexivity|].
    split; [split; [reflexivity|]; split; [reflexivity|]; split; [discriminate|]; exists 0%N, []; reflexivity|].
    split; [|repeat split; discriminate].
    intros q p Hq _. cbn [run_sys s_procs] in Hq. apply elem_of_list_to_map_2 in Hq.
    repeat (apply elem_of_cons in Hq as [Hq|Hq]; [injection Hq as _ ->; reflexivity|]).
    by apply elem_of_nil in Hq.
  - split; [exact A|]. split; [exact B|]. split; [vm_compute; reflexivity|].
    eexists _, _, 4242%Z. split; [vm_compute; reflexivity|]. split; [reflexivity|]. split; [vm_compute; reflexivity|].
    split; [lia|]. vm_compute. reflexivity.
Qed.

(** ** C45 *)
(** The sandbox is gone: nothing is left at or below its directory, no lock file, no pid file. *)
Definition deleted (storage : path) (name : string) (f : fs) : Prop :=
  (∀ q, under (base_of storage name) q = true → f !! q = None) ∧
  f !! lock_of storage name = None ∧ f !! pid_of storage name = None.

(** In full: whatever the storage directory holds and whatever name passed validation. *)
Definition C45_full : Prop := ∀ umask ord busy dord glob storage name s t,
  (∀ l, dord l ≡ₚ l) → wf_tree (s_fs s) → is_dir_at (s_fs s) storage → validate_name name = Ok tt →
  s_mounts s = [] →
  t ∈ so_sys (delete_action umask ord busy dord glob storage name [] true s) ::
      so_trace (delete_action umask ord busy dord glob storage name [] true s) →
  only_touches storage name (s_fs s) (s_fs t).

Lemma op_delete_one (storage : path) (name : string) (f0 : fs) (umask : N) (ord : list N → list N)
    (busy : path → bool) (dord : list path → list path) :
  is_dir_at f0 storage → comp_ok name → (∀ l, dord l ≡ₚ l) →
  striple (Frame storage name f0) (Inv storage name f0) (delete_each umask ord busy dord storage [name])
    (λ r s, Frame storage name f0 s ∧ ((r = ([name], 0) ∧ deleted storage name (s_fs s)) ∨ r = ([], 1))).
Proof.
  intros Hd Hn Hord. cbn [delete_each].
  eapply st_bind; [by apply op_get_or_stopped|]. intros sb.
  eapply (st_bind _ _ _ _ (λ ok s, Frame storage name f0 s ∧ (ok = true → deleted storage name (s_fs s)))).
  - intros s [Hs [E1 E2]].
    destruct (op_sandbox_delete storage name f0 Hd Hn ord busy dord sb Hord E1 E2 s Hs) as (A & B & C).
    cbn [so_trace so_sys so_res]. split; [exact A|]. split; [exact B|]. intros a Ea. injection Ea as <-.
    split; [exact B|]. intros Hok.
    destruct (so_res (sandbox_delete ord busy dord sb s)) as [[]|e]; [|done].
    destruct (C tt eq_refl) as (_ & C1 & C2 & C3). done.
  - intros ok. eapply st_bind.
    { apply (st_ret _ _ _ (λ r s, r = ([], 0) ∧ Frame storage name f0 s ∧ (ok = true → deleted storage name (s_fs s)))).
      - intros s [H _]. exact H.
      - intros s H. done. }
    intros r. apply st_ret.
    + intros s (_ & H & _). exact H.
    + intros s (-> & H1 & H2). split; [exact H1|]. destruct ok; [left|right]; [|done].
      split; [done|]. by apply H2.
Qed.

(** Proved for names that are legal file names and sandbox files that are not symbolic links. Every
    intermediate state is covered, so an interrupted deletion touches nothing else either. The second
    part: if success is reported, everything is gone. *)
Theorem C45_delete_removes_only_this_partial (umask : N) (ord : list N → list N) (busy : path → bool)
    (dord : list path → list path) (glob : string → string → bool) (storage : path) (name : string)
    (confirmed : bool) (s : sys) :
  (∀ l, dord l ≡ₚ l) → tidy storage name s →
  (∀ t, t ∈ so_sys (delete_action umask ord busy dord glob storage name [] confirmed s) ::
      so_trace (delete_action umask ord busy dord glob storage name [] confirmed s) →
    only_touches storage name (s_fs s) (s_fs t)) ∧
  (∀ n, so_res (delete_action umask ord busy dord glob storage name [] confirmed s) = Ok ([name], n) →
    deleted storage name (s_fs (so_sys (delete_action umask ord busy dord glob storage name [] confirmed s)))).
Proof.
  intros Hord Hs. pose proof (tidy_inv _ _ _ Hs) as HI.
  pose proof (td_storage _ _ _ Hs) as Hd. pose proof (td_name _ _ _ Hs) as Hn.
  assert (striple (Frame storage name (s_fs s)) (Inv storage name (s_fs s))
    (delete_action umask ord busy dord glob storage name [] confirmed)
    (λ r s', ∀ n, r = ([name], n) → deleted storage name (s_fs s'))) as H.
  { unfold delete_action.
    apply (st_bind _ _ _ _ (λ names s', Inv storage name (s_fs s) s' ∧ (names = [] ∨ names = [name]))).
    - eapply st_bind.
      { apply (st_get _ _ _ (λ _, Inv storage name (s_fs s))); [apply inv_frame|done]. }
      intros [].
      + eapply st_bind; [by apply op_get|]. intros o. apply st_ret; [intros t [Ht _]; by apply inv_frame|].
        intros t [Ht _]. split; [done|by right].
      + apply st_ret; [apply inv_frame|]. intros t Ht. split; [done|by left].
    - intros names.
      assert (striple (Frame storage name (s_fs s))
        (λ s', Inv storage name (s_fs s) s' ∧ (names = [] ∨ names = [name]))
        (sret ([], 0)) (λ r s', ∀ n, r = ([name], n) → deleted storage name (s_fs s'))) as Hret.
      { apply st_ret; [intros t [Ht _]; by apply inv_frame|]. done. }
      destruct names as [|x l]; [exact Hret|]. destruct confirmed; [|exact Hret].
      intros t [Ht Hnm]. destruct Hnm as [Hnm|Hnm]; [done|]. rewrite Hnm.
      destruct (op_delete_one storage name (s_fs s) umask ord busy dord Hd Hn Hord t Ht) as (A & B & C).
      split; [exact A|]. split; [exact B|]. intros r Er n ->.
      destruct (C _ Er) as [_ [[_ K]|K]]; [exact K|done]. }
  destruct (H s HI) as (A & B & C). split.
  - intros t Ht. apply elem_of_cons in Ht as [-> |Ht]; [apply B|].
    rewrite Forall_forall in A. apply (A t Ht).
  - intros n E. by eapply C.
Qed.
Print Assumptions C45_delete_removes_only_this_partial.

(** The name ".." passes validation: the directory above the storage directory is deleted. *)
Theorem C45_refuted : ¬ C45_full.
Proof.
  intros H.
  set (o := delete_action 18 same_order (λ _, false) (λ l, l) (λ _ _, true) home_storage ".." [] true (Sys home_fs ∅ [])).
  pose proof (H 18%N same_order (λ _, false) (λ l, l) (λ _ _, true) home_storage ".." (Sys home_fs ∅ []) (so_sys o)
    ltac:(done) ltac:(apply wf_treeb_spec; vm_compute; reflexivity) ltac:(apply dirb_spec; vm_compute; reflexivity)
    eq_refl eq_refl (elem_of_list_here _ _)) as K.
  specialize (K ["home"; "letter"]).
  assert (s_fs (so_sys o) !! ["home"; "letter"] = None) as E by (vm_compute; reflexivity).
  rewrite E in K. clear E. vm_compute in K. 
  enough (None = Some (Node (KFile "dear") 420 1000 1000 1 ∅)) as X by discriminate X.
  apply K. intros [A|[A|A]]; discriminate A.
Qed.
Print Assumptions C45_refuted.

(** Even for a harmless name: if the sandbox's directory is a symbolic link, the contents of the
    directory it leads to are deleted. (The storage directory belongs to the user, the program runs
    as root.) *)
Definition C45_plain_names : Prop := ∀ umask ord busy dord glob storage name s t,
  (∀ l, dord l ≡ₚ l) → wf_tree (s_fs s) → is_dir_at (s_fs s) storage → comp_ok name → s_mounts s = [] →
  t ∈ so_sys (delete_action umask ord busy dord glob storage name [] true s) ::
      so_trace (delete_action umask ord busy dord glob storage name [] true s) →
  only_touches storage name (s_fs s) (s_fs t).
Definition link_fs : fs :=
  <[["home"; ".sandboxes"; "b"] := Node (KLink "/etc") 511 1000 1000 1 ∅]>
  (<[["etc"] := Node KDir 493 0 0 1 ∅]> (<[["etc"; "passwd"] := Node (KFile "root") 420 0 0 1 ∅]> home_fs)).
Theorem C45_symlink_refuted : ¬ C45_plain_names.
Proof.
  intros H.
  set (o := delete_action 18 same_order (λ _, false) (λ l, l) (λ _ _, true) home_storage "b" [] true (Sys link_fs ∅ [])).
  pose proof (H 18%N same_order (λ _, false) (λ l, l) (λ _ _, true) home_storage "b" (Sys link_fs ∅ []) (so_sys o)
    ltac:(done) ltac:(apply wf_treeb_spec; vm_compute; reflexivity) ltac:(apply dirb_spec; vm_compute; reflexivity)
    ltac:(apply comp_okb_spec; vm_compute; reflexivity) eq_refl (elem_of_list_here _ _)) as K.
  specialize (K ["etc"; "passwd"]).
  assert (s_fs (so_sys o) !! ["etc"; "passwd"] = None) as E by (vm_compute; reflexivity).
  rewrite E in K. clear E. vm_compute in K.
  enough (None = Some (Node (KFile "root") 420 0 0 1 ∅)) as X by discriminate X.
  apply K. intros [A|[A|A]]; discriminate A.
Qed.
Print Assumptions C45_symlink_refuted.

(** When the deletion succeeds: the stop can be carried out, the sandbox's directory is a directory, no
    unmounting fails, and once the mounts are gone everything is on the storage directory's device. *)
Definition stoppable (s : sys) (storage : path) (name : string) : Prop :=
  (∀ n, s_fs s !! pid_of storage name = Some n → n_kind n ≠ KDir) ∧
  ∀ r, recorded_process s storage name r → alive_ok (p_children r) s.
Definition device_at (f : fs) (p : path) (dev : N) : Prop := ∃ n, f !! p = Some n ∧ n_dev n = dev.
Definition one_device_without_mounts (s : sys) (base : path) (dev : N) : Prop :=
  NoDup (mt_at <$> s_mounts s) ∧
  (∀ m, m ∈ s_mounts s → under base (mt_at m) = true → n_dev (mt_under m) = dev) ∧
  ∀ q n, under base q = true → s_fs s !! q = Some n →
    (∀ m, m ∈ s_mounts s → under base (mt_at m) = true → under (mt_at m) q = false) → n_dev n = dev.

Lemma nodup_sub (p : path) (l l' : list mount) (m : mount) : NoDup (mt_at <$> l) → l ≡ₚ m :: l' →
  NoDup (mt_at <$> l') ∧ mt_at m ∉ mt_at <$> l'.
Proof. intros H E. rewrite E in H. cbn [fmap list_fmap] in H. by apply NoDup_cons in H as [A B]. Qed.
Lemma nodup_filter_fmap (Q : mount → Prop) `{∀ m, Decision (Q m)} (l : list mount) :
  NoDup (mt_at <$> l) → NoDup (mt_at <$> filter Q l).
Proof.
  induction l as [|m l IH]; intros Hn; [constructor|]. cbn [fmap list_fmap] in Hn.
  apply NoDup_cons in Hn as [A B]. rewrite filter_cons. destruct (decide (Q m)); [|by apply IH].
  cbn [fmap list_fmap]. apply NoDup_cons. split; [|by apply IH]. intros Hin. apply A.
  apply elem_of_list_fmap in Hin as (x & -> & Hx). apply elem_of_list_filter in Hx as [_ Hx].
  apply elem_of_list_fmap. by exists x.
Qed.
Lemma pop_none (p : path) (l : list mount) : pop_mount p l = None → p ∉ mt_at <$> l.
Proof.
  induction l as [|m l IH]; intros H; [by apply not_elem_of_nil|]. cbn [pop_mount] in H.
  destruct (decide (mt_at m = p)) as [|Hne]; [done|].
  destruct (pop_mount p l) as [[m' l'']|]; [done|]. cbn [fmap list_fmap]. apply not_elem_of_cons.
  split; [congruence|by apply IH].
Qed.
Lemma unmount_device (busy : path → bool) (base : path) (dev : N) (l : list path) (s : sys) :
  (∀ p, busy p = false) → one_device_without_mounts s base dev →
  (∀ p, p ∈ l → under base p = true) →
  (∀ m, m ∈ s_mounts s → under base (mt_at m) = true → mt_at m ∈ l) →
  ∀ q n, under base q = true →
    s_fs (so_sys (sfor l (λ p, ignore_err (sys_umount busy p)) s)) !! q = Some n → n_dev n = dev.
Proof.
  intros Hb. revert s. induction l as [|p l IH]; intros s (H1 & H2 & H3) Hl Hm q n Hq Hn.
  - cbn [sfor sret so_sys] in Hn. apply (H3 q n Hq Hn). intros m Hin Hu. specialize (Hm m Hin Hu).
    by apply elem_of_nil in Hm.
  - cbn [sfor] in Hn. unfold sbind, ignore_err in Hn. cbn [so_sys so_res] in Hn. fold (ignore_err) in Hn.
    revert Hn. apply IH; [|intros x Hx; apply Hl; by right| |exact Hq]; clear q n Hq.
    + unfold sys_umount. rewrite Hb. destruct (pop_mount p (s_mounts s)) as [[m l']|] eqn:Ep; [|done].
      destruct (pop_spec _ _ _ _ Ep) as [Hat Hperm]. cbn [so_sys s_mounts s_fs].
      destruct (nodup_sub p _ _ _ H1 Hperm) as [N1 N2].
      assert (m ∈ s_mounts s) as Hin by (rewrite Hperm; left).
      assert (under base p = true) as Hup by (apply Hl; left).
      unfold one_device_without_mounts. cbn [s_mounts s_fs].
      split; [by apply nodup_filter_fmap|]. split.
      * intros m' Hm'. apply elem_of_list_filter in Hm' as [_ Hm']. apply H2. rewrite Hperm. by right.
      * intros q n Hq Hn Hunc. destruct (under p q) eqn:Eu.
        -- destruct (decide (q = p)) as [-> |Hne].
           ++ rewrite <-Hat, umount_at in Hn. injection Hn as <-. apply H2; [done|by rewrite Hat].
           ++ rewrite umount_inside in Hn; [done|by rewrite Hat|by rewrite Hat].
        -- rewrite umount_outside in Hn by (by rewrite Hat). apply (H3 q n Hq Hn). intros m' Hm' Hu'.
           rewrite Hperm in Hm'. apply elem_of_cons in Hm' as [-> |Hm']; [by rewrite Hat|].
           destruct (under (mt_at m') q) eqn:E'; [|done].
           destruct (decide (under p (mt_at m') = true ∧ mt_at m' ≠ p)) as [[D1 _]|D].
           ++ by rewrite (under_trans p (mt_at m') q D1 E') in Eu.
           ++ rewrite <-E'. apply Hunc; [|done]. by apply elem_of_list_filter.
    + unfold sys_umount. rewrite Hb. destruct (pop_mount p (s_mounts s)) as [[m l']|] eqn:Ep.
      * destruct (pop_spec _ _ _ _ Ep) as [Hat Hperm]. cbn [so_sys s_mounts].
        destruct (nodup_sub p _ _ _ H1 Hperm) as [N1 N2].
        intros m' Hm' Hu. apply elem_of_list_filter in Hm' as [_ Hm'].
        assert (mt_at m' ∈ p :: l) as K by (apply Hm; [rewrite Hperm; by right|done]).
        apply elem_of_cons in K as [K|K]; [|done]. exfalso. apply N2. rewrite Hat, <-K.
        apply elem_of_list_fmap. by exists m'.
      * cbn [so_sys sthrow]. intros m' Hm' Hu. pose proof (Hm m' Hm' Hu) as K.
        apply elem_of_cons in K as [K|K]; [|done]. exfalso. apply (pop_none _ _ Ep). rewrite <-K.
        apply elem_of_list_fmap. by exists m'.
Qed.

Lemma get_result (umask : N) (storage : path) (name : string) (s : sys) :
  so_sys (sandbox_get umask storage name s) = so_sys (sandbox_get_or_stopped umask storage name s) ∧
  is_ok (so_res (sandbox_get umask storage name s)) = is_ok (so_res (sandbox_get_or_stopped umask storage name s)).
Proof.
  unfold sandbox_get_or_stopped, sbind. generalize (sandbox_get umask storage name s) as o. intros o.
  destruct (so_res o) as [a|e] eqn:E; cbn [so_sys so_res sret is_ok]; split; done.
Qed.
(** What is needed of the state for the deletion to go through. *)
Record deletable (storage : path) (name : string) (dev : N) (s : sys) : Prop := {
  dl_base : is_dir_at (s_fs s) (base_of storage name);
  dl_lock : ∀ n, s_fs s !! lock_of storage name = Some n → n_kind n ≠ KDir;
  dl_stop : stoppable s storage name;
  dl_dev : device_at (s_fs s) storage dev;
  dl_one : one_device_without_mounts s (base_of storage name) dev;
}.
Lemma recorded_process_same (s t : sys) (storage : path) (name : string) (r : proc) :
  s_fs t !! pid_of storage name = s_fs s !! pid_of storage name ∨ s_fs t !! pid_of storage name = None →
  s_procs t = s_procs s → recorded_process t storage name r → recorded_process s storage name r.
Proof.
  intros Hp Ep (n & c & z & H1 & H2 & H3 & H4 & H5). exists n, c, z. rewrite Ep in H5.
  destruct Hp as [Hp|Hp]; [|congruence]. rewrite Hp in H1. done.
Qed.
Lemma deletable_keep (storage : path) (name : string) (dev : N) (s t : sys) :
  deletable storage name dev s →
  s_procs t = s_procs s → s_mounts t = s_mounts s →
  (s_fs t !! pid_of storage name = s_fs s !! pid_of storage name ∨ s_fs t !! pid_of storage name = None) →
  (∀ q, q ≠ pid_of storage name → q ≠ lock_of storage name → s_fs t !! q = s_fs s !! q) →
  (∃ n, s_fs t !! lock_of storage name = Some n ∧ n_kind n ≠ KDir) → deletable storage name dev t.
Proof.
  intros [H1 H2 [H3 H3'] H4 (H5 & H6 & H7)] Ep Em Hp Hq (nl & Hl & Hlk).
  assert (∀ q, under (base_of storage name) q = true → s_fs t !! q = s_fs s !! q) as Hbelow.
  { intros q Hu. apply Hq; intros ->.
    - by rewrite pid_outside in Hu.
    - by rewrite lock_outside in Hu. }
  split.
  - destruct H1 as (n & A & B). exists n. rewrite Hbelow by apply under_refl. done.
  - intros n Hn. rewrite Hl in Hn. by injection Hn as <-.
  - split.
    + intros n Hn. apply H3. destruct Hp as [Hp|Hp]; congruence.
    + intros r Hr k p Hk Hns. rewrite Ep in Hk.
      exact (H3' r (recorded_process_same _ _ _ _ _ Hp Ep Hr) k p Hk Hns).
  - destruct H4 as (n & A & B). exists n. split; [|done]. rewrite Hq; [done| |].
    + intros E. symmetry in E. by apply snoc_ne_self in E.
    + intros E. symmetry in E. by apply snoc_ne_self in E.
  - unfold one_device_without_mounts. rewrite Em. split; [done|]. split; [done|].
    intros q n Hu Hn. rewrite Hbelow in Hn by done. by apply H7.
Qed.

Lemma unmount_keeps (busy : path → bool) (base : path) (q : path) (s : sys) : under base q = false →
  s_fs (so_sys (unmount busy base s)) !! q = s_fs s !! q.
Proof.
  intros Hq. unfold unmount.
  assert (∀ p, p ∈ mounts_below s base → under base p = true) as Hl.
  { intros p Hp. by apply mounts_below_spec in Hp as [Hp _]. }
  revert Hl. generalize (mounts_below s base) as l. intros l. revert s.
  induction l as [|p l IH]; intros s Hl; [done|]. cbn [sfor]. unfold sbind. unfold ignore_err at 1 2.
  cbn [so_res so_sys]. rewrite IH by (intros x Hx; apply Hl; by right).
  unfold ignore_err. cbn [so_sys]. unfold sys_umount. destruct (busy p); [done|].
  destruct (pop_mount p (s_mounts s)) as [[m l']|] eqn:Ep; [|done].
  destruct (pop_spec _ _ _ _ Ep) as [Hat _]. cbn [so_sys s_fs]. apply umount_outside. rewrite Hat.
  destruct (under p q) eqn:E; [|done]. exfalso.
  by rewrite (under_trans base p q (Hl p (elem_of_list_here _ _)) E) in Hq.
Qed.
Lemma unmount_base (busy : path → bool) (base : path) (s : sys) :
  mounts_ok base s → is_dir_at (s_fs s) base → is_dir_at (s_fs (so_sys (unmount busy base s))) base.
Proof.
  unfold unmount.
  assert (∀ p, p ∈ mounts_below s base → under base p = true) as Hl.
  { intros p Hp. by apply mounts_below_spec in Hp as [Hp _]. }
  revert Hl. generalize (mounts_below s base) as l. intros l. revert s.
  induction l as [|p l IH]; intros s Hl Hm Hb; [done|]. cbn [sfor]. unfold sbind. unfold ignore_err at 1 2.
  cbn [so_res so_sys].
  enough (mounts_ok base (so_sys (sys_umount busy p s)) ∧ is_dir_at (s_fs (so_sys (sys_umount busy p s))) base) as [A B].
  { apply IH; [|done..]. intros x Hx. apply Hl. by right. }
  unfold sys_umount. destruct (busy p); [done|].
  destruct (pop_mount p (s_mounts s)) as [[m l']|] eqn:Ep; [|done].
  destruct (pop_spec _ _ _ _ Ep) as [Hat Hperm]. cbn [so_sys s_fs].
  assert (m ∈ s_mounts s) as Hin by (rewrite Hperm; left).
  split.
  - intros m' Hm' Hu. cbn [s_mounts s_fs] in Hm' |- *. apply elem_of_list_filter in Hm' as [Hn Hm'].
    assert (m' ∈ s_mounts s) as Hm'' by (rewrite Hperm; by right).
    destruct (Hm m' Hm'' Hu) as (A & B & C). split; [|done].
    destruct (decide (mt_at m' = p)) as [E|E].
    + rewrite E, <-Hat, umount_at. by eexists.
    + rewrite umount_outside; [done|]. rewrite Hat. destruct (under p (mt_at m')) eqn:U; [|done].
      exfalso. by apply Hn.
  - assert (under base p = true) as Hp by (apply Hl; left).
    destruct (decide (base = p)) as [E|E].
    + exists (mt_under m). rewrite E, <-Hat, umount_at. split; [done|].
      apply (Hm m Hin). by rewrite Hat.
    + destruct Hb as (n & A & B). exists n. split; [|done]. rewrite umount_outside; [done|]. rewrite Hat.
      destruct (under p base) eqn:U; [|done]. exfalso. apply E. by apply under_antisym.
Qed.

Lemma stop_loop_ok (ns : N) (l : list N) (t : sys) : alive_ok ns t → so_res (sfor l (stop_one ns) t) = Ok tt.
Proof.
  revert t. induction l as [|x l IH]; intros t Hal; [done|].
  assert (alive_ok ns (so_sys (stop_one ns x t))) as Ha.
  { eapply alive_ok_kills; [exact Hal|]. apply stop_one_only. }
  pose proof (stop_one_ok ns x t Hal) as E. cbn [sfor].
  destruct (stop_one ns x t) as [tr u r] eqn:Eo. cbn [so_res so_sys] in E, Ha. subst r.
  rewrite (sbind_ok _ _ _ _ _ _ Eo). cbn [so_res]. by apply IH.
Qed.
Lemma the_sandbox_pid (storage : path) (name : string) (f0 : fs) (s : sys) (z : Z) (r : proc) :
  is_dir_at f0 storage → comp_ok name → Inv storage name f0 s →
  sb_pid (the_sandbox storage name s) = Some z → proc_of s z = Some r → recorded_process s storage name r.
Proof.
  intros Hd Hn Hs Ez Er. apply proc_of_some in Er as [Hz Er].
  unfold the_sandbox in Ez. cbn [sb_pid] in Ez.
  destruct (bool_decide (is_Some (s_fs s !! base_of storage name))); [|discriminate Ez].
  unfold recorded_pid in Ez. rewrite (read_pid storage name f0 Hd Hn s Hs) in Ez.
  destruct (s_fs s !! pid_of storage name) as [n|] eqn:En; [|discriminate Ez].
  destruct (n_kind n) as [c| | | | | |] eqn:Ek; try discriminate Ez.
  destruct (utf8_valid c); [|discriminate Ez]. destruct (parse_i32 c) as [z'|] eqn:Epa; [|discriminate Ez].
  cbn [mbind option_bind] in Ez. destruct (proc_of s z'); [|discriminate Ez]. cbn [mbind option_bind] in Ez.
  destruct (split_whitespace _ !! 2) as [w|]; [|discriminate Ez]. cbn [mbind option_bind] in Ez.
  destruct (_ || _)%bool; [discriminate Ez|]. injection Ez as ->. exists n, c, z. done.
Qed.
Lemma stop_processes_ok (ord : list N → list N) (pid : option Z) (t : sys) :
  (∀ z r, pid = Some z → proc_of t z = Some r → alive_ok (p_children r) t) →
  so_res (stop_processes ord pid t) = Ok tt ∧
  s_fs (so_sys (stop_processes ord pid t)) = s_fs t ∧
  s_mounts (so_sys (stop_processes ord pid t)) = s_mounts t.
Proof.
  intros Hal. unfold stop_processes. destruct pid as [z|]; [|split; [reflexivity|split; reflexivity]].
  destruct (proc_of t z) as [r|] eqn:Er; [|split; [reflexivity|split; reflexivity]].
  destruct (String.eqb (p_state r) "Z"); [split; [reflexivity|split; reflexivity]|].
  destruct (stop_loop_only (p_children r) (ord (pids t)) t) as [_ (L1 & L2 & _)].
  split; [apply stop_loop_ok; exact (Hal z r eq_refl Er)|]. split; [exact L1|exact L2].
Qed.
Lemma remove_pid_ok (storage : path) (name : string) (f0 : fs) (u : sys) :
  is_dir_at f0 storage → comp_ok name → Inv storage name f0 u →
  (∀ n, s_fs u !! pid_of storage name = Some n → n_kind n ≠ KDir) →
  so_res (remove_pid_file storage name u) = Ok tt ∧
  s_mounts (so_sys (remove_pid_file storage name u)) = s_mounts u ∧
  ∀ q, q ≠ pid_of storage name → s_fs (so_sys (remove_pid_file storage name u)) !! q = s_fs u !! q.
Proof.
  intros Hd Hn Q Hdir.
  unfold remove_pid_file. rewrite (pid_exists storage name f0 Hd Hn u Q). case_bool_decide as Ex.
  - destruct Ex as [n Hnn].
    assert (sys_unlink (pid_of storage name) (s_fs u) = emit (delete (pid_of storage name) (s_fs u))) as Eu.
    { apply (unlink_ok _ _ n); [|exact Hnn|by apply Hdir].
      apply (frame_pid storage name f0 Hd Hn). by apply inv_frame. }
    unfold lift_fs. rewrite Eu. cbn [o_res o_fs emit so_res so_sys set_fs s_mounts s_fs].
    split; [reflexivity|]. split; [reflexivity|]. intros q Hq. by rewrite lookup_delete_ne by done.
  - split; [reflexivity|]. split; [reflexivity|]. intros q _. reflexivity.
Qed.
Lemma sandbox_stop_eq (ord : list N → list N) (sb : sandbox) :
  sandbox_stop ord sb = sbind (stop_processes ord (sb_pid sb)) (λ _, remove_pid_file (sb_storage sb) (sb_name sb)).
Proof. reflexivity. Qed.
Lemma stop_ok (storage : path) (name : string) (f0 : fs) (ord : list N → list N) (sb : sandbox) (t : sys) :
  is_dir_at f0 storage → comp_ok name → Inv storage name f0 t →
  sb_storage sb = storage → sb_name sb = name →
  (∀ z r, sb_pid sb = Some z → proc_of t z = Some r → alive_ok (p_children r) t) →
  (∀ n, s_fs t !! pid_of storage name = Some n → n_kind n ≠ KDir) →
  so_res (sandbox_stop ord sb t) = Ok tt ∧
  s_mounts (so_sys (sandbox_stop ord sb t)) = s_mounts t ∧
  ∀ q, q ≠ pid_of storage name → s_fs (so_sys (sandbox_stop ord sb t)) !! q = s_fs t !! q.
Proof.
  intros Hd Hn Ht Eb1 Eb2 Hal Hdir.
  destruct (stop_processes_ok ord (sb_pid sb) t Hal) as (A1 & A2 & A3).
  destruct (op_stop_processes storage name f0 ord (sb_pid sb) t Ht) as (_ & _ & Q). specialize (Q tt A1).
  rewrite !sandbox_stop_eq, Eb1, Eb2.
  rewrite (sbind_ok_res _ _ _ _ A1), (sbind_ok_sys _ _ _ _ A1).
  destruct (remove_pid_ok storage name f0 _ Hd Hn Q) as (B1 & B2 & B3); [rewrite A2; exact Hdir|].
  rewrite A2 in B3. rewrite A3 in B2. split; [exact B1|]. split; [exact B2|exact B3].
Qed.
Lemma sandbox_delete_eq (ord : list N → list N) (busy : path → bool) (dord : list path → list path) (sb : sandbox) :
  sandbox_delete ord busy dord sb =
  sbind (sandbox_stop ord sb) (λ _,
  sbind (unmount busy (base_of (sb_storage sb) (sb_name sb))) (λ _,
  sbind (sget (λ s, Ok (exists_ (s_fs s) (base_of (sb_storage sb) (sb_name sb))))) (λ there : bool,
  sbind (if there then lift_fs (rmdir_rec dord (base_of (sb_storage sb) (sb_name sb))) else sret tt) (λ _,
  lift_fs (sys_unlink (lock_of (sb_storage sb) (sb_name sb))))))).
Proof. reflexivity. Qed.

Lemma delete_ok (storage : path) (name : string) (f0 : fs) (ord : list N → list N) (busy : path → bool)
    (dord : list path → list path) (dev : N) (sb : sandbox) (t : sys) :
  is_dir_at f0 storage → comp_ok name → Inv storage name f0 t → (∀ l, dord l ≡ₚ l) → (∀ p, busy p = false) →
  sb_storage sb = storage → sb_name sb = name →
  (∀ z r, sb_pid sb = Some z → proc_of t z = Some r → alive_ok (p_children r) t) →
  deletable storage name dev t → is_Some (s_fs t !! lock_of storage name) →
  so_res (sandbox_delete ord busy dord sb t) = Ok tt.
Proof.
  intros Hd Hn Ht Hord Hbusy Eb1 Eb2 Hal [H1 H2 [H3 _] H4 (H5 & H6 & H7)] [nl Hnl].
  destruct (stop_ok storage name f0 ord sb t Hd Hn Ht Eb1 Eb2 Hal H3) as (A1 & A2 & A3).
  destruct (op_stop storage name f0 Hd Hn ord sb Eb1 Eb2 t Ht) as (_ & _ & Q). destruct (Q tt A1) as [Q1 Q2]. clear Q.
  rewrite sandbox_delete_eq, Eb1, Eb2. rewrite (sbind_ok_res _ _ _ _ A1).
  revert Q1 Q2 A2 A3. generalize (so_sys (sandbox_stop ord sb t)) as u. intros u Q1 Q2 A2 A3. clear A1.
  destruct (unmount_procs busy (base_of storage name) u) as (_ & _ & B1).
  destruct (op_unmount storage name f0 Hd busy None u (conj Q1 Q2)) as (_ & _ & V). destruct (V tt B1) as [V1 _]. clear V.
  assert (∀ q, under (base_of storage name) q = true → s_fs u !! q = s_fs t !! q) as Hbelow.
  { intros q Hq. apply A3. intros ->. by rewrite pid_outside in Hq. }
  assert (is_dir_at (s_fs u) (base_of storage name)) as Hbu.
  { destruct H1 as (n & X & Y). exists n. rewrite Hbelow by apply under_refl. done. }
  pose proof (unmount_base busy (base_of storage name) u (iv_mounts _ _ _ _ Q1) Hbu) as Hbv.
  assert (∀ q n, under (base_of storage name) q = true →
    s_fs (so_sys (unmount busy (base_of storage name) u)) !! q = Some n → n_dev n = dev) as Hone.
  { unfold unmount. apply unmount_device; [exact Hbusy| | |].
    - unfold one_device_without_mounts. rewrite A2. split; [exact H5|]. split; [exact H6|].
      intros q n Hq Hqn. rewrite Hbelow in Hqn by exact Hq. by apply H7.
    - intros p Hp. by apply mounts_below_spec in Hp as [Hp _].
    - intros m Hm Hu. apply mounts_below_spec. split; [exact Hu|]. by exists m. }
  assert (s_fs (so_sys (unmount busy (base_of storage name) u)) !! lock_of storage name = Some nl) as Hlv.
  { rewrite unmount_keeps by apply lock_outside. rewrite A3; [exact Hnl|]. apply lock_ne_pid. }
  assert (device_at (s_fs (so_sys (unmount busy (base_of storage name) u))) storage dev) as Hdv.
  { destruct H4 as (n & X & Y). exists n. split; [|exact Y].
    rewrite unmount_keeps; [rewrite A3; [exact X|]|].
    - intros E. symmetry in E. by apply snoc_ne_self in E.
    - destruct (under (base_of storage name) storage) eqn:E; [|done]. exfalso.
      apply (storage_outside storage name). by left. }
  rewrite (sbind_ok_res _ _ _ _ B1).
  revert V1 Hbv Hone Hlv Hdv. generalize (so_sys (unmount busy (base_of storage name) u)) as v.
  intros v V1 Hbv Hone Hlv Hdv. clear B1.
  assert (exists_ (s_fs v) (base_of storage name) = true) as Eex.
  { rewrite (base_exists storage name f0 Hd Hn v V1). destruct Hbv as (n & X & _). by rewrite X, bool_decide_eq_true_2. }
  rewrite (sbind_ok_res _ _ v true) by (unfold sget; cbn [so_res]; by rewrite Eex).
  cbn [sget so_sys]. cbv beta iota.
  pose proof (inv_frame storage name f0 v V1) as Hf.
  destruct Hbv as (bn & Hbn & Hbk).
  assert (o_res (rmdir_rec dord (base_of storage name) (s_fs v)) = Ok tt) as Hr.
  { apply (rmdir_rec_complete dord _ _ dev bn); [exact Hord|apply Hf|unfold base_of; by destruct storage|exact Hbn|exact Hbk| |].
    - intros q n Hq Hqn. by eapply Hone.
    - unfold parent_dev, base_of. rewrite removelast_last. destruct Hdv as (n & X & Y). by rewrite X. }
  destruct (rmdir_rec_frame dord (base_of storage name) (s_fs v)) as (_ & [Hwf Hsh] & _);
    [exact Hord|apply Hf|eapply dirpath_nolink, (frame_base storage name f0 Hd Hn); exact Hf|apply V1|].
  revert Hr Hwf Hsh. destruct (rmdir_rec dord (base_of storage name) (s_fs v)) as [tr w r] eqn:Erm.
  cbn [o_res o_fs]. intros -> Hwf Hsh.
  assert (so_res (lift_fs (rmdir_rec dord (base_of storage name)) v) = Ok tt ∧
          so_sys (lift_fs (rmdir_rec dord (base_of storage name)) v) = set_fs v w) as [L1 L2].
  { unfold lift_fs. rewrite Erm. split; reflexivity. }
  rewrite (sbind_ok_res _ _ _ _ L1), L2. clear L1 L2 Erm.
  assert (w !! lock_of storage name = Some nl) as Hw.
  { destruct (Hsh (lock_of storage name)) as [X|[_ X]]; [by rewrite X|]. by rewrite lock_outside in X. }
  assert (sys_unlink (lock_of storage name) w = emit (delete (lock_of storage name) w)) as Eu.
  { apply (unlink_ok _ _ nl); [|exact Hw|by apply H2].
    by eapply wf_dirpath. }
  unfold lift_fs. cbn [set_fs s_fs]. rewrite Eu. reflexivity.
Qed.

Lemma get_or_stopped_ok (umask : N) (storage : path) (name : string) (f0 : fs) (dev : N) (s : sys) :
  is_dir_at f0 storage → comp_ok name → Inv storage name f0 s → deletable storage name dev s →
  let o := sandbox_get_or_stopped umask storage name s in
  so_res o = Ok (the_sandbox storage name s) ∧ Inv storage name f0 (so_sys o) ∧
  deletable storage name dev (so_sys o) ∧ is_Some (s_fs (so_sys o) !! lock_of storage name) ∧
  s_procs (so_sys o) = s_procs s.
Proof.
  intros Hd Hn Hs Hdel.
  destruct (get_cases storage name f0 Hd Hn umask s Hs)
    as [(e & E & n & X & Y)|(tr & s1 & E & HI1 & Ep & _ & Hpid & Em & Hq & n & Hl & Hlk)].
  { by destruct (dl_lock _ _ _ _ Hdel n X Y). }
  cbv zeta. rewrite E. cbn [so_res so_sys]. split; [reflexivity|]. split; [exact HI1|].
  split; [|split; [by eexists|exact Ep]].
  apply (deletable_keep _ _ _ s); [exact Hdel|exact Ep|exact Em|exact Hpid|exact Hq|by exists n].
Qed.
Lemma delete_each_one_eq (umask : N) (ord : list N → list N) (busy : path → bool)
    (dord : list path → list path) (storage : path) (name : string) :
  delete_each umask ord busy dord storage [name] =
  sbind (sandbox_get_or_stopped umask storage name) (λ sb,
  sbind (λ s, let o := sandbox_delete ord busy dord sb s in SOut (so_trace o) (so_sys o) (Ok (is_ok (so_res o)))) (λ ok : bool,
  sbind (sret ([], 0)) (λ r : list string * nat,
  sret (if ok then (name :: r.1, r.2) else (r.1, S r.2))))).
Proof. reflexivity. Qed.
Lemma delete_each_one_ok (umask : N) (ord : list N → list N) (busy : path → bool)
    (dord : list path → list path) (storage : path) (name : string) (f0 : fs) (dev : N) (s : sys) :
  is_dir_at f0 storage → comp_ok name → Inv storage name f0 s → (∀ l, dord l ≡ₚ l) → (∀ p, busy p = false) →
  deletable storage name dev s →
  so_res (delete_each umask ord busy dord storage [name] s) = Ok ([name], 0).
Proof.
  intros Hd Hn Hs Hord Hbusy Hdel.
  destruct (get_or_stopped_ok umask storage name f0 dev s Hd Hn Hs Hdel) as (A1 & A2 & A3 & A4 & A5).
  rewrite delete_each_one_eq, (sbind_ok_res _ _ _ _ A1).
  assert (so_res (sandbox_delete ord busy dord (the_sandbox storage name s)
    (so_sys (sandbox_get_or_stopped umask storage name s))) = Ok tt) as B.
  { apply (delete_ok storage name f0 ord busy dord dev); [exact Hd|exact Hn|exact A2|exact Hord|exact Hbusy|reflexivity|reflexivity| |exact A3|exact A4].
    intros z r Ez Er k p Hk Hns. rewrite A5 in Hk.
    assert (proc_of s z = Some r) as Er' by (unfold proc_of in Er |- *; rewrite A5 in Er; exact Er).
    pose proof (the_sandbox_pid storage name f0 s z r Hd Hn Hs Ez Er') as Hrec.
    exact (proj2 (dl_stop _ _ _ _ Hdel) r Hrec k p Hk Hns). }
  revert B. generalize (so_sys (sandbox_get_or_stopped umask storage name s)) as u. intros u B.
  generalize (sandbox_delete ord busy dord (the_sandbox storage name s)) as m, B. clear. intros m B.
  unfold sbind. rewrite B. reflexivity.
Qed.
Lemma delete_action_eq (umask : N) (ord : list N → list N) (busy : path → bool)
    (dord : list path → list path) (glob : string → string → bool) (storage : path) (name : string) :
  delete_action umask ord busy dord glob storage name [] true =
  sbind (sbind (sget (λ s, Ok (sandbox_exists (s_fs s) storage name))) (λ there : bool,
     if there then sbind (sandbox_get umask storage name) (λ _, sret [name]) else sret [])) (λ names,
  match names with [] => sret ([], 0) | _ => delete_each umask ord busy dord storage names end).
Proof. reflexivity. Qed.

(** Only a hint for the order in which constants are unfolded. *)
Local Opaque delete_each sandbox_get sandbox_delete.
Lemma one_name {A : Type} (g : sys → bool) (m : S_ A) (name : string) (s : sys) :
  g s = true → is_ok (so_res (m s)) = true →
  so_res (sbind (sget (λ s, Ok (g s))) (λ there : bool, if there then sbind m (λ _, sret [name]) else sret []) s) = Ok [name] ∧
  so_sys (sbind (sget (λ s, Ok (g s))) (λ there : bool, if there then sbind m (λ _, sret [name]) else sret []) s) = so_sys (m s).
Proof.
  intros E Hm. unfold sbind, sget. cbn [so_res so_sys]. rewrite E.
  destruct (so_res (m s)) as [a|e]; [|discriminate Hm]. split; reflexivity.
Qed.
Lemma with_names {A : Type} (m : S_ (list string)) (a : S_ A) (F : list string → S_ A) (s t : sys) (x : string) :
  so_res (m s) = Ok [x] → so_sys (m s) = t →
  so_res (sbind m (λ names, match names with [] => a | _ => F names end) s) = so_res (F [x] t).
Proof. intros E <-. unfold sbind. by rewrite E. Qed.
(** With these conditions a confirmed deletion succeeds and everything is gone. *)
Theorem C45_delete_succeeds (umask : N) (ord : list N → list N) (busy : path → bool)
    (dord : list path → list path) (glob : string → string → bool) (storage : path) (name : string)
    (dev : N) (s : sys) :
  (∀ l, dord l ≡ₚ l) → (∀ p, busy p = false) → tidy storage name s → deletable storage name dev s →
  so_res (delete_action umask ord busy dord glob storage name [] true s) = Ok ([name], 0) ∧
  deleted storage name (s_fs (so_sys (delete_action umask ord busy dord glob storage name [] true s))).
Proof.
  intros Hord Hbusy Ht Hdel.
  enough (so_res (delete_action umask ord busy dord glob storage name [] true s) = Ok ([name], 0)) as E.
  { split; [exact E|].
    destruct (C45_delete_removes_only_this_partial umask ord busy dord glob storage name true s Hord Ht) as [_ H].
    exact (H 0 E). }
  pose proof (tidy_inv _ _ _ Ht) as HI.
  pose proof (td_storage _ _ _ Ht) as Hd. pose proof (td_name _ _ _ Ht) as Hn.
  destruct (get_or_stopped_ok umask storage name (s_fs s) dev s Hd Hn HI Hdel) as (A1 & A2 & A3 & _ & _).
  destruct (get_result umask storage name s) as [G1 G2]. rewrite A1 in G2.
  assert (sandbox_exists (s_fs s) storage name = true) as Eex.
  { unfold sandbox_exists. rewrite (base_exists storage name (s_fs s) Hd Hn s HI).
    destruct (dl_base _ _ _ _ Hdel) as (n & X & _). by rewrite X, bool_decide_eq_true_2. }
  destruct (one_name (λ s, sandbox_exists (s_fs s) storage name) (sandbox_get umask storage name) name s Eex G2) as [M1 M2].
  rewrite G1 in M2. rewrite delete_action_eq, (with_names _ _ _ _ _ _ M1 M2).
  rewrite <-G1 in A2, A3 |- *.
  apply (delete_each_one_ok umask ord busy dord storage name (s_fs s) dev); done.
Qed.
Print Assumptions C45_delete_succeeds.

(** The running sandbox of above with an overlay mounted in it meets the conditions. *)
Definition mounted_sys : sys :=
  Sys (<[["home"; ".sandboxes"; "a"; "overlay"; "etc"] := Node KDir 493 0 0 77 ∅]>
       (<[["home"; ".sandboxes"; "a"; "overlay"; "etc"; "passwd"] := Node (KFile "root") 420 0 0 77 ∅]> run_fs))
    (run_procs "sleep") [Mount ["home"; ".sandboxes"; "a"; "overlay"; "etc"] (Node KDir 493 0 0 1 ∅)].
Example C45_nonvacuous :
  tidy home_storage "a" mounted_sys ∧ deletable home_storage "a" 1 mounted_sys ∧
  deleted home_storage "a" (s_fs (so_sys (delete_action 18 same_order (λ _, false) (λ l, l) (λ _ _, true)
    home_storage "a" [] true mounted_sys))).
Proof.
  assert (tidy home_storage "a" mounted_sys) as Ht by (apply tidyb_spec; vm_compute; reflexivity).
  assert (deletable home_storage "a" 1 mounted_sys) as Hd.
  { split.
    - apply dirb_spec. vm_compute. reflexivity.
    - intros n Hn. vm_compute in Hn. injection Hn as <-. discriminate.
    - split.
      + intros n Hn. vm_compute in Hn. injection Hn as <-. discriminate.
      + intros r _ k p Hk _. cbn [mounted_sys s_procs] in Hk. apply elem_of_list_to_map_2 in Hk.
        repeat (apply elem_of_cons in Hk as [Hk|Hk]; [injection Hk as _ ->; reflexivity|]).
        by apply elem_of_nil in Hk.
    - eexists. split; [vm_compute; reflexivity|reflexivity].
    - split; [|split].
      + apply NoDup_cons. split; [apply not_elem_of_nil|apply NoDup_nil_2].
      + intros m Hm _. apply elem_of_list_singleton in Hm as ->. reflexivity.
      + intros q n Hq Hn Hunc.
        specialize (Hunc (Mount ["home"; ".sandboxes"; "a"; "overlay"; "etc"] (Node KDir 493 0 0 1 ∅))
          (elem_of_list_here _ _) eq_refl).
        assert (map_to_list (s_fs mounted_sys) = map_to_list (s_fs mounted_sys)) as _ by reflexivity.
        apply elem_of_map_to_list in Hn.
        assert (forallb (λ kn : path * node, under ["home"; ".sandboxes"; "a"; "overlay"; "etc"] kn.1 || N.eqb (n_dev kn.2) 1)%bool
          (map_to_list (s_fs mounted_sys)) = true) as Hall by (vm_compute; reflexivity).
        rewrite forallb_forall in Hall. apply elem_of_list_In in Hn. specialize (Hall _ Hn). cbn [fst snd] in Hall.
        cbn [mt_at] in Hunc. rewrite Hunc in Hall. cbn [orb] in Hall. by apply N.eqb_eq in Hall. }
  split; [exact Ht|]. split; [exact Hd|].
  destruct (C45_delete_succeeds 18 same_order (λ _, false) (λ l, l) (λ _ _, true) home_storage "a" 1 mounted_sys
    ltac:(done) ltac:(done) Ht Hd) as [_ H]. exact H.
Qed.
