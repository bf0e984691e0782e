(** * C60, C61: `sandbox list`, and commands that take patterns.
    Model: Lifecycle.v ([get_sandboxes], [delete_action], [stop_all]). *)
From Verif Require Export Props_Lifecycle.

(** ** C60 *)
(** Specification. A sandbox is listed if its lock file is there and its name matches one of the
    patterns (any name if there is none). It runs if its pid file holds the number of a process. *)
Definition listed (glob : string → string → bool) (patterns : list string) (f : fs) (storage : path)
    (name : string) : Prop :=
  is_Some (f !! lock_of storage name) ∧ (patterns = [] ∨ ∃ p, p ∈ patterns ∧ glob p name = true).
Definition runs (s : sys) (storage : path) (name : string) : Prop :=
  ∃ n c z, s_fs s !! pid_of storage name = Some n ∧ n_kind n = KFile c ∧ parse_i32 c = Some (Z.pos z) ∧
           is_Some (s_procs s !! N.pos z).
(** Sorted, without repetition. *)
Definition ascending (l : list string) : Prop := StronglySorted (λ a b, str_cmp a b = Lt) l.

Definition C60_result (glob : string → string → bool) (patterns : list string) (s : sys) (storage : path) : Prop :=
  ∃ run stopped, get_sandboxes glob s storage patterns = Ok (run, stopped) ∧
    ascending run ∧ ascending stopped ∧
    (∀ name, name ∈ run ↔ listed glob patterns (s_fs s) storage name ∧ runs s storage name) ∧
    (∀ name, name ∈ stopped ↔ listed glob patterns (s_fs s) storage name ∧ ¬ runs s storage name).
(** The pid files are what the program writes: regular files with text. *)
Definition pid_files_ok (s : sys) (storage : path) : Prop :=
  ∀ name n, s_fs s !! pid_of storage name = Some n →
    ∃ c, n_kind n = KFile c ∧ utf8_valid c = true ∧ ∀ z, parse_i32 c = Some z → (0 < z)%Z.
Definition C60_full : Prop := ∀ glob patterns s storage,
  wf_tree (s_fs s) → is_dir_at (s_fs s) storage → pid_files_ok s storage → C60_result glob patterns s storage.

Lemma lock_entry_valid (x : string) : utf8_valid x = true →
  (∃ n, x = n +:+ ".lock" ∧ lock_entry x = Ok (Some n)) ∨
  ((∀ n, x ≠ n +:+ ".lock") ∧ lock_entry x = Ok None).
Proof.
  intros Hu. unfold lock_entry. rewrite lossy_valid by done.
  destruct (ends_with ".lock" x) eqn:E.
  - left. apply ends_with_spec in E as [n ->]. exists n. split; [done|].
    rewrite str_app_len. change (String.length ".lock") with 5.
    replace (String.length n + 5 - 5) with (String.length n) by lia.
    assert (str_take (String.length n) (n +:+ ".lock") = Ok n) as ->; [|done].
    unfold str_take. rewrite str_app_len.
    assert (String.length n <=? String.length n + String.length ".lock" = true) as -> by (apply Nat.leb_le; lia).
    rewrite to_bytes_app.
    assert (String.length n = length (to_bytes n)) as Hl.
    { clear. induction n as [|a n IH]; [done|]. simpl. by f_equal. }
    rewrite Hl, drop_app, take_app, of_to_bytes. done.
  - right. split; [|done]. intros n ->.
    assert (ends_with ".lock" (n +:+ ".lock") = true) as H by (apply ends_with_spec; by exists n). congruence.
Qed.

Lemma nodup_omap {A B : Type} (g : A → option B) (l : list A) :
  (∀ x y b, g x = Some b → g y = Some b → x = y) → NoDup l → NoDup (omap g l).
Proof.
  intros Hg. induction 1 as [|x l Hx Hl IH]; [constructor|]. simpl.
  destruct (g x) as [b|] eqn:E; [|done]. constructor; [|done].
  intros (y & Hy & Ey)%elem_of_list_omap. by rewrite (Hg x y b) in Hx.
Qed.
Lemma keys_nodup (f : fs) : NoDup (keys f).
Proof. unfold keys. apply NoDup_fst_map_to_list. Qed.
Lemma readdir_nodup (f : fs) (p : path) (names : list string) : readdir f p = Ok names → NoDup names.
Proof.
  unfold readdir. destruct (lookup_f f p) as [c|]; [|done]. cbn [rbind].
  destruct (f !! c) as [n|]; [|done]. destruct (is_kdir (n_kind n)); [|done]. intros [= <-].
  apply nodup_omap; [|apply keys_nodup]. intros x y b Hx Hy.
  destruct (path_strip c x) as [[|x1 [|? ?]]|] eqn:Ex; try done.
  destruct (path_strip c y) as [[|y1 [|? ?]]|] eqn:Ey; try done.
  apply path_strip_spec in Ex as ->. apply path_strip_spec in Ey as ->. congruence.
Qed.
Lemma readdir_dir (f : fs) (storage : path) : wf_tree f → is_dir_at f storage →
  ∃ entries, readdir f storage = Ok entries ∧ NoDup entries ∧
    ∀ x, x ∈ entries ↔ is_Some (f !! (storage ++ [x])).
Proof.
  intros Hwf Hd. assert (∃ entries, readdir f storage = Ok entries) as [entries Er].
  { unfold readdir. destruct Hd as (d & Hn & Hk). rewrite lookup_f_dirpath.
    - cbn [rbind]. rewrite Hn, Hk. eauto.
    - by eapply wf_dirpath.
    - intros n Hn'. rewrite Hn in Hn'. injection Hn' as <-. by rewrite Hk. }
  exists entries. split; [done|]. split; [by eapply readdir_nodup|]. intros x.
  apply (readdir_elem f storage); [done| |..|done].
  - by apply dirpath_nolink, is_dir_at_dirpath.
  - destruct Hd as (d & Hn & Hk). intros n Hn'. rewrite Hn in Hn'. injection Hn' as <-. by rewrite Hk.
Qed.

Lemma listed_running_spec (s : sys) (storage : path) (name : string) :
  wf_tree (s_fs s) → is_dir_at (s_fs s) storage → pid_files_ok s storage → contains "/" name = false →
  ∃ b, listed_running s storage name = Ok b ∧ (b = true ↔ runs s storage name).
Proof.
  intros Hwf Hd Hp Hn. unfold listed_running.
  assert (dirpath (s_fs s) (pid_of storage name)) as Hdp.
  { apply dirpath_snoc; [done|done|]. by apply pid_comp_ok. }
  assert (∀ n, s_fs s !! pid_of storage name = Some n → is_klink (n_kind n) = false) as Hl.
  { intros n E. destruct (Hp name n E) as (c & -> & _). done. }
  unfold exists_, read_file. rewrite (stat_dirpath _ _ Hdp Hl).
  destruct (s_fs s !! pid_of storage name) as [n|] eqn:En; cbn [is_ok rbind].
  - destruct (Hp name n En) as (c & Ek & Hu & Hz). rewrite Ek. cbn [rbind]. rewrite Hu.
    eexists. split; [done|]. destruct (parse_i32 c) as [z|] eqn:Ez.
    + specialize (Hz z eq_refl). destruct z as [|z|z]; [lia| |lia].
      cbn [Z.leb Z.compare]. unfold proc_of. cbn [Z.leb Z.compare Z.to_N]. rewrite bool_decide_eq_true. split.
      * intros Hs. exists n, c, z. done.
      * intros (n' & c' & z' & E1 & E2 & E3 & E4). rewrite En in E1. injection E1 as <-.
        rewrite Ek in E2. injection E2 as <-. rewrite Ez in E3. injection E3 as <-. done.
    + split; [done|]. intros (n' & c' & z' & E1 & E2 & E3 & E4). rewrite En in E1. injection E1 as <-.
      rewrite Ek in E2. injection E2 as <-. congruence.
  - exists false. split; [done|]. split; [done|]. intros (n' & c' & z' & E1 & _). congruence.
Qed.

Lemma patterns_spec (glob : string → string → bool) (patterns : list string) (name : string) :
  (match patterns with [] => true | _ => existsb (λ p, glob p name) patterns end) = true ↔
  (patterns = [] ∨ ∃ p, p ∈ patterns ∧ glob p name = true).
Proof.
  destruct patterns as [|p l].
  - split; [by left|done].
  - rewrite existsb_exists. split.
    + intros (x & Hx & E). right. exists x. by rewrite elem_of_list_In.
    + intros [|(x & Hx & E)]; [done|]. exists x. by rewrite <-elem_of_list_In.
Qed.

Lemma collect_spec (glob : string → string → bool) (s : sys) (storage : path) (patterns entries : list string) :
  wf_tree (s_fs s) → is_dir_at (s_fs s) storage → pid_files_ok s storage → NoDup entries →
  (∀ x, x ∈ entries → utf8_valid x = true ∧ contains "/" x = false) →
  ∃ run stopped, collect_sandboxes glob s storage patterns entries = Ok (run, stopped) ∧
    NoDup run ∧ NoDup stopped ∧
    (∀ name, name ∈ run ↔ name +:+ ".lock" ∈ entries ∧
       (patterns = [] ∨ ∃ p, p ∈ patterns ∧ glob p name = true) ∧ runs s storage name) ∧
    (∀ name, name ∈ stopped ↔ name +:+ ".lock" ∈ entries ∧
       (patterns = [] ∨ ∃ p, p ∈ patterns ∧ glob p name = true) ∧ ¬ runs s storage name).
Proof.
  intros Hwf Hd Hp. induction 1 as [|x l Hx Hl IH]; intros Hall.
  { exists [], []. split; [done|]. split; [constructor|]. split; [constructor|].
    split; intros name; rewrite !elem_of_nil; tauto. }
  destruct IH as (run & stopped & E & N1 & N2 & S1 & S2).
  { intros y Hy. apply Hall. by right. }
  destruct (Hall x (elem_of_list_here _ _)) as [Hux Hsx]. cbn [collect_sandboxes].
  destruct (lock_entry_valid x Hux) as [(n & -> & ->)|(Hne & ->)]; cbn [rbind].
  2:{ exists run, stopped. split; [done|]. split; [done|]. split; [done|].
      split; intros name; rewrite elem_of_cons; [rewrite S1|rewrite S2]; specialize (Hne name); naive_solver. }
  assert (∀ name, name +:+ ".lock" = n +:+ ".lock" ↔ name = n) as Hi.
  { intros name. split; [apply str_app_eq_r|by intros ->]. }
  pose proof (patterns_spec glob patterns n) as Hpat.
  assert (contains "/" n = false) as Hsn.
  { destruct (contains "/" n) eqn:Ec; [|done]. by rewrite (contains_app_l "/" n ".lock" Ec) in Hsx. }
  destruct (match patterns with [] => true | _ => existsb (λ p, glob p n) patterns end).
  - destruct (listed_running_spec s storage n Hwf Hd Hp Hsn) as (b & -> & Hb). cbn [rbind].
    rewrite E. cbn [rbind]. destruct b.
    + exists (n :: run), stopped. split; [done|].
      split; [constructor; [|done]; rewrite S1; tauto|]. split; [done|].
      split; intros name; rewrite !elem_of_cons, Hi; [rewrite S1|rewrite S2].
      * split; [intros [-> |H]; [tauto|tauto]|]. intros ([-> |H1] & H2 & H3); [by left|right; tauto].
      * split; [tauto|]. intros ([-> |H1] & H2 & H3); [tauto|tauto].
    + exists run, (n :: stopped). split; [done|]. split; [done|].
      assert (¬ runs s storage n) as Hnr by (intros H; by apply Hb in H).
      split; [constructor; [|done]; rewrite S2; tauto|].
      split; intros name; rewrite !elem_of_cons, Hi; [rewrite S1|rewrite S2].
      * split; [tauto|]. intros ([-> |H1] & H2 & H3); [tauto|tauto].
      * split; [intros [-> |H]; [tauto|tauto]|]. intros ([-> |H1] & H2 & H3); [by left|right; tauto].
  - exists run, stopped. split; [done|]. split; [done|]. split; [done|].
    split; intros name; rewrite !elem_of_cons, Hi; [rewrite S1|rewrite S2]; naive_solver.
Qed.

Lemma ascending_sorted (l : list string) : NoDup l → ascending (sort_by str_cmp l).
Proof.
  intros Hn. pose proof (cmp_total_preorder _ str_cmp_total) as Hc.
  pose proof (sort_by_sorted str_cmp l Hc) as Hs.
  assert (NoDup (sort_by str_cmp l)) as Hn' by by rewrite sort_by_perm.
  revert Hn'. unfold ascending. induction Hs as [|x m Hm IH Hx]; [constructor|].
  intros [Hxm Hmm]%NoDup_cons. constructor; [by apply IH|].
  apply Forall_forall. intros y Hy. rewrite Forall_forall in Hx. specialize (Hx y Hy). unfold cmp_le in Hx.
  destruct (str_cmp x y) eqn:E; [|done|done]. apply (ct_eq _ str_cmp_total) in E. by subst.
Qed.

(** With UTF-8 names in the storage directory the listing is exact. *)
Theorem C60_listing_exact_partial : ∀ glob patterns s storage,
  wf_tree (s_fs s) → is_dir_at (s_fs s) storage → pid_files_ok s storage →
  (∀ x, is_Some (s_fs s !! (storage ++ [x])) → utf8_valid x = true) →
  C60_result glob patterns s storage.
Proof.
  intros glob patterns s storage Hwf Hd Hp Hu.
  destruct (readdir_dir _ storage Hwf Hd) as (entries & Er & Hnd & Hin).
  destruct (collect_spec glob s storage patterns entries Hwf Hd Hp Hnd) as (run & stopped & E & N1 & N2 & S1 & S2).
  { intros x Hx. apply Hin in Hx as [n Hx]. split; [by apply Hu; eauto|].
    apply (wf_comp _ Hwf _ _ _ Hx). }
  exists (sort_by str_cmp run), (sort_by str_cmp stopped).
  unfold get_sandboxes. rewrite Er. cbn [rbind]. rewrite E. cbn [rbind]. split; [done|].
  split; [by apply ascending_sorted|]. split; [by apply ascending_sorted|].
  unfold listed, lock_of. split; intros name; rewrite elem_of_sort_by; [rewrite S1|rewrite S2];
    rewrite (Hin (name +:+ ".lock")); tauto.
Qed.

(** An executable form of [pid_files_ok]. *)
Definition pid_file_okb (n : node) : bool :=
  match n_kind n with
  | KFile c => utf8_valid c && match parse_i32 c with Some z => Z.ltb 0 z | None => true end
  | _ => false
  end.
Definition pid_files_okb (s : sys) (storage : path) : bool :=
  forallb (λ kn : path * node,
    match path_strip storage kn.1 with
    | Some [x] => negb (ends_with ".pid" x) || pid_file_okb kn.2
    | _ => true
    end) (map_to_list (s_fs s)).
Lemma pid_files_okb_spec (s : sys) (storage : path) : pid_files_okb s storage = true → pid_files_ok s storage.
Proof.
  unfold pid_files_okb. rewrite forallb_forall. intros H name n Hn.
  assert (In (pid_of storage name, n) (map_to_list (s_fs s))) as Hi
    by (apply elem_of_list_In, elem_of_map_to_list; done).
  specialize (H _ Hi). cbn [fst snd] in H. unfold pid_of in H. rewrite path_strip_app in H.
  assert (ends_with ".pid" (name +:+ ".pid") = true) as E by (apply ends_with_spec; by exists name).
  rewrite E in H. cbn [negb orb] in H. unfold pid_file_okb in H.
  destruct (n_kind n) as [c| | | | | |]; try done. apply andb_true_iff in H as [H1 H2].
  exists c. split; [done|]. split; [done|]. intros z Hz. rewrite Hz in H2. by apply Z.ltb_lt.
Qed.

(** A file whose name is not UTF-8 and ends in .lock makes the command panic. *)
Definition odd_lock_sys : sys :=
  Sys (<[home_storage ++ [odd_name +:+ ".lock"] := Node (KFile "") 420 0 0 1 ∅]> run_fs) (run_procs "sleep") [].
Theorem C60_refuted : ¬ C60_full.
Proof.
  intros H. destruct (H (λ _ _, true) [] odd_lock_sys home_storage) as (run & stopped & E & _).
  - apply wf_treeb_spec. vm_compute. reflexivity.
  - apply dirb_spec. vm_compute. reflexivity.
  - apply pid_files_okb_spec. vm_compute. reflexivity.
  - vm_compute in E. discriminate E.
Qed.
Print Assumptions C60_refuted.
Print Assumptions C60_listing_exact_partial.

(** Two sandboxes, one running; the names a user sees. *)
Definition two_sys : sys :=
  Sys (<[home_storage ++ ["b.lock"] := Node (KFile "") 420 0 0 1 ∅]> run_fs) (run_procs "sleep") [].
Definition names_okb (f : fs) (storage : path) : bool :=
  forallb (λ k, match path_strip storage k with Some [x] => utf8_valid x | _ => true end) (keys f).
Lemma names_okb_spec (f : fs) (storage : path) : names_okb f storage = true →
  ∀ x, is_Some (f !! (storage ++ [x])) → utf8_valid x = true.
Proof.
  unfold names_okb. rewrite forallb_forall. intros H x Hx.
  assert (In (storage ++ [x]) (keys f)) as Hi by (apply elem_of_list_In, elem_of_keys; done).
  specialize (H _ Hi). cbn beta in H. rewrite path_strip_app in H. exact H.
Qed.
Example C60_nonvacuous :
  wf_tree (s_fs two_sys) ∧ is_dir_at (s_fs two_sys) home_storage ∧ pid_files_ok two_sys home_storage ∧
  (∀ x, is_Some (s_fs two_sys !! (home_storage ++ [x])) → utf8_valid x = true) ∧
  get_sandboxes (λ _ _, true) two_sys home_storage [] = Ok (["a"], ["b"]).
Proof.
  split; [apply wf_treeb_spec; vm_compute; reflexivity|].
  split; [apply dirb_spec; vm_compute; reflexivity|].
  split; [apply pid_files_okb_spec; vm_compute; reflexivity|].
  split; [apply names_okb_spec; vm_compute; reflexivity|].
  vm_compute. reflexivity.
Qed.

(** ** C61 *)
(** Specification: only files of the sandboxes in [W] differ, only processes recorded for one of them and
    mounts below the directory of one of them are missing. *)
Definition only_of (W : string → Prop) (storage : path) (s t : sys) : Prop :=
  (∀ q, (∀ name, W name → ¬ of_sandbox storage name q) → s_fs t !! q = s_fs s !! q) ∧
  (∀ k p, s_procs t !! k = Some p → s_procs s !! k = Some p) ∧
  (∀ k p, s_procs s !! k = Some p → s_procs t !! k = None →
     ∃ name r, W name ∧ recorded_process s storage name r ∧ in_ns (p_children r) p = true) ∧
  (∀ m, m ∈ s_mounts t → m ∈ s_mounts s) ∧
  (∀ m, m ∈ s_mounts s → (∀ name, W name → under (base_of storage name) (mt_at m) = false) → m ∈ s_mounts t).
(** Mounts are made at least two levels below the storage directory (storage/name/overlay/...). *)
Definition deep_mounts (storage : path) (s : sys) : Prop :=
  ∀ m, m ∈ s_mounts s → under storage (mt_at m) = true → ∃ x y r, mt_at m = storage ++ x :: y :: r.

(** *** One operation *)
(** Mounts at or below [b] may have gone, the others are there, in the same order. *)
Definition fewer (b : path) (l l' : list mount) : Prop :=
  sublist l' l ∧ ∀ m, m ∈ l → under b (mt_at m) = false → m ∈ l'.
Lemma fewer_refl (b : path) (l : list mount) : fewer b l l.
Proof. by split. Qed.
Lemma fewer_trans (b : path) (l1 l2 l3 : list mount) : fewer b l1 l2 → fewer b l2 l3 → fewer b l1 l3.
Proof. intros [A1 A2] [B1 B2]. split; [by etrans|]. intros m H1 H2. apply B2; [|done]. by apply A2. Qed.
Lemma fewer_in (b : path) (l l' : list mount) (m : mount) : fewer b l l' → m ∈ l' → m ∈ l.
Proof. intros [A _] H. by eapply elem_of_submseteq; [|apply sublist_submseteq]. Qed.
Definition step_of (storage : path) (name : string) (t u : sys) : Prop :=
  Frame storage name (s_fs t) u ∧ attributed t storage name u ∧
  fewer (base_of storage name) (s_mounts t) (s_mounts u).

(** Mounts never appear. *)
Definition no_mounts {A : Type} (b : path) (m : S_ A) : Prop :=
  ∀ s, Forall (λ t, fewer b (s_mounts s) (s_mounts t)) (so_sys (m s) :: so_trace (m s)).
Lemma nm_quiet (b : path) (s : sys) : Forall (λ t, fewer b (s_mounts s) (s_mounts t)) [s].
Proof. constructor; [apply fewer_refl|constructor]. Qed.
Lemma nm_bind {A B : Type} (b : path) (m : S_ A) (k : A → S_ B) : no_mounts b m → (∀ a, no_mounts b (k a)) → no_mounts b (sbind m k).
Proof.
  intros Hm Hk s. specialize (Hm s). apply Forall_cons in Hm as [H1 H2]. unfold sbind.
  destruct (so_res (m s)) as [a|e]; cbn [so_sys so_trace]; [|by constructor].
  specialize (Hk a (so_sys (m s))). apply Forall_cons in Hk as [K1 K2].
  constructor; [by eapply fewer_trans|]. apply Forall_app. split; [done|].
  eapply Forall_impl; [exact K2|]. intros t Ht. cbn beta in *. by eapply fewer_trans.
Qed.
Lemma nm_ret {A : Type} (b : path) (a : A) : no_mounts b (sret a).
Proof. intros s. exact (nm_quiet b s). Qed.
Lemma nm_get {A : Type} (b : path) (r : sys → res A) : no_mounts b (sget r).
Proof. intros s. exact (nm_quiet b s). Qed.
Lemma nm_throw {A : Type} (b : path) (e : err) : no_mounts b (sthrow (A := A) e).
Proof. intros s. exact (nm_quiet b s). Qed.
Lemma nm_fs {A : Type} (b : path) (m : M A) : no_mounts b (lift_fs m).
Proof.
  intros s. unfold lift_fs. cbn [so_sys so_trace]. constructor; [apply fewer_refl|].
  apply Forall_fmap, Forall_forall. intros x _. apply fewer_refl.
Qed.
Lemma nm_ignore (b : path) (m : S_ unit) : no_mounts b m → no_mounts b (ignore_err m).
Proof. intros H s. exact (H s). Qed.
Lemma nm_for {A : Type} (b : path) (l : list A) (g : A → S_ unit) : (∀ x, x ∈ l → no_mounts b (g x)) → no_mounts b (sfor l g).
Proof. induction l as [|x l IH]; intros H; [apply nm_ret|]. cbn [sfor].
  apply nm_bind; [apply H; left|]. intros _. apply IH. intros y Hy. apply H. by right. Qed.
Lemma nm_here {A : Type} (b : path) (m : sys → S_ A) : (∀ s, no_mounts b (m s)) → no_mounts b (λ s, m s s).
Proof. intros H s. exact (H s s). Qed.
Lemma nm_stop_one (b : path) (ns q : N) : no_mounts b (stop_one ns q).
Proof.
  intros s. unfold stop_one. destruct (s_procs s !! q) as [p|] eqn:E; [|exact (nm_quiet b s)].
  destruct (String.eqb (p_state p) "Z"); [exact (nm_quiet b s)|]. destruct (bool_decide _); [|exact (nm_quiet b s)].
  destruct (utf8_valid (p_cmdline p)); [|exact (nm_quiet b s)].
  unfold ignore_err, sys_kill. rewrite E. cbn [so_sys so_trace]. constructor; [apply fewer_refl|]. constructor; [apply fewer_refl|constructor].
Qed.
Lemma nm_stop_processes (b : path) (ord : list N → list N) (pid : option Z) : no_mounts b (stop_processes ord pid).
Proof.
  intros s. unfold stop_processes. destruct pid as [z|]; [|exact (nm_quiet b s)].
  destruct (proc_of s z) as [p|]; [|exact (nm_quiet b s)]. destruct (String.eqb (p_state p) "Z"); [exact (nm_quiet b s)|].
  apply nm_for. intros q _. apply nm_stop_one.
Qed.
Lemma nm_remove_pid (b : path) (storage : path) (name : string) : no_mounts b (remove_pid_file storage name).
Proof. intros s. unfold remove_pid_file. destruct (exists_ _ _); [apply nm_fs|exact (nm_quiet b s)]. Qed.
Lemma nm_stop (b : path) (ord : list N → list N) (sb : sandbox) : no_mounts b (sandbox_stop ord sb).
Proof. unfold sandbox_stop. apply nm_bind; [apply nm_stop_processes|]. intros _. apply nm_remove_pid. Qed.
Lemma pop_sublist (p : path) (l l' : list mount) (m : mount) : pop_mount p l = Some (m, l') → sublist l' l.
Proof.
  revert l'. induction l as [|x l IH]; intros l' H; [done|]. cbn [pop_mount] in H.
  destruct (decide (mt_at x = p)); [injection H as <- <-; by apply sublist_cons|].
  destruct (pop_mount p l) as [[m' l'']|]; [|done]. injection H as <- <-. apply sublist_skip. by apply IH.
Qed.
Lemma filter_sublist {A : Type} (P : A → Prop) `{∀ x, Decision (P x)} (l : list A) : sublist (filter P l) l.
Proof.
  induction l as [|x l IH]; [done|]. rewrite filter_cons. destruct (decide (P x)); [by apply sublist_skip|by apply sublist_cons].
Qed.
Lemma nm_umount (b : path) (busy : path → bool) (p : path) : under b p = true → no_mounts b (sys_umount busy p).
Proof.
  intros Hb s. unfold sys_umount. destruct (busy p); [exact (nm_quiet b s)|].
  destruct (pop_mount p (s_mounts s)) as [[m l]|] eqn:E; [|exact (nm_quiet b s)].
  pose proof (pop_sublist _ _ _ _ E) as Es. apply pop_spec in E as [Em E]. cbn [so_sys so_trace].
  assert (fewer b (s_mounts s) (filter (λ m', ¬ (under p (mt_at m') = true ∧ mt_at m' ≠ p)) l)) as H.
  { split.
    - etrans; [apply filter_sublist|done].
    - intros x Hx Hu. rewrite E in Hx. apply elem_of_cons in Hx as [-> |Hx]; [congruence|].
      apply elem_of_list_filter. split; [|done]. intros [H1 _].
      apply under_spec in Hb as [z ->]. apply under_spec in H1 as [z' H1].
      assert (under b (mt_at x) = true); [|congruence].
      apply under_spec. rewrite H1, <-app_assoc. by eexists. }
  constructor; [done|]. constructor; [done|constructor].
Qed.
Lemma nm_unmount (b : path) (busy : path → bool) : no_mounts b (unmount busy b).
Proof.
  intros s. unfold unmount. apply nm_for. intros p Hp. apply nm_ignore, nm_umount.
  by apply mounts_below_spec in Hp as [Hp _].
Qed.
Lemma nm_running (b : path) (storage : path) (name : string) : no_mounts b (get_running_sandbox_pid storage name).
Proof.
  intros s. unfold get_running_sandbox_pid. destruct (exists_ _ _); [|exact (nm_quiet b s)].
  destruct (recorded_pid s storage name); [exact (nm_quiet b s)|].
  apply nm_bind; [apply nm_ignore, nm_fs|]. intros _. apply nm_ret.
Qed.
Lemma nm_get_or_stopped (b : path) (umask : N) (storage : path) (name : string) :
  no_mounts b (sandbox_get_or_stopped umask storage name).
Proof.
  unfold sandbox_get_or_stopped, sandbox_get.
  repeat (apply nm_bind; [|intros ?]); [apply nm_fs|apply nm_get| |apply nm_ret].
  match goal with |- no_mounts b (if ?b then _ else _) => destruct b end; [apply nm_ret|].
  apply nm_bind; [apply nm_running|]. intros [z|]; apply nm_ret.
Qed.
Lemma nm_delete (b : path) (ord : list N → list N) (busy : path → bool) (dord : list path → list path) (sb : sandbox) :
  b = base_of (sb_storage sb) (sb_name sb) →
  no_mounts b (sandbox_delete ord busy dord sb).
Proof.
  intros ->. unfold sandbox_delete. apply nm_bind; [apply nm_stop|intros _].
  apply nm_bind; [apply nm_unmount|intros _]. apply nm_bind; [apply nm_get|intros there].
  apply nm_bind; [|intros _; apply nm_fs].
  destruct there; [apply nm_fs|apply nm_ret].
Qed.

(** *** Stopping and deleting one sandbox *)
Definition delete_one (umask : N) (ord : list N → list N) (busy : path → bool) (dord : list path → list path)
    (storage : path) (name : string) : S_ unit :=
  sbind (sandbox_get_or_stopped umask storage name) (sandbox_delete ord busy dord).

Lemma striple_all {A : Type} (I P : sys → Prop) (m : S_ A) (Q : A → sys → Prop) (s : sys) :
  striple I P m Q → P s → Forall I (so_sys (m s) :: so_trace (m s)).
Proof. intros H Hs. destruct (H s Hs) as (A1 & A2 & _). by constructor. Qed.
Lemma all_and (I J : sys → Prop) (l : list sys) : Forall I l → Forall J l → Forall (λ t, I t ∧ J t) l.
Proof. rewrite !Forall_forall. intros H1 H2 t Ht. split; [by apply H1|by apply H2]. Qed.

Lemma stop_action_step (umask : N) (ord : list N → list N) (busy : path → bool) (storage : path) (name : string) (s : sys) :
  tidy storage name s →
  Forall (step_of storage name s)
    (so_sys (stop_action umask ord busy storage name s) :: so_trace (stop_action umask ord busy storage name s)).
Proof.
  intros Hs. pose proof (tidy_inv _ _ _ Hs) as HI.
  apply all_and; [|apply all_and].
  - apply (striple_all _ (Inv storage name (s_fs s)) _ (λ _ _, True)); [|done].
    pose proof (td_storage _ _ _ Hs) as Hd. pose proof (td_name _ _ _ Hs) as Hn.
    unfold stop_action. eapply st_bind; [by apply op_get_or_stopped|]. intros sb.
    intros t (Ht & E1 & E2).
    revert t Ht. change (striple (Frame storage name (s_fs s)) (Inv storage name (s_fs s))
      (sbind (sandbox_stop ord sb) (λ _, unmount busy (base_of storage name))) (λ _ _, True)).
    eapply st_bind; [by apply op_stop|]. intros [].
    eapply st_weaken; [apply (op_unmount storage name (s_fs s) Hd busy None)|done|done].
  - destruct (stop_attributed umask ord storage name s (λ _, unmount busy (base_of storage name))) as [A B];
      [|done|by constructor].
    intros _ u. by destruct (unmount_procs busy (base_of storage name) u) as (C1 & C2 & _).
  - assert (no_mounts (base_of storage name) (stop_action umask ord busy storage name)) as H; [|exact (H s)].
    unfold stop_action. apply nm_bind; [apply nm_get_or_stopped|]. intros sb.
    apply nm_bind; [apply nm_stop|]. intros _. apply nm_unmount.
Qed.

Definition no_kill {A : Type} (m : S_ A) : Prop :=
  ∀ u, Forall (λ t, s_procs t = s_procs u) (so_trace (m u)) ∧ s_procs (so_sys (m u)) = s_procs u.
Lemma nk_bind {A B : Type} (m : S_ A) (k : A → S_ B) : no_kill m → (∀ a, no_kill (k a)) → no_kill (sbind m k).
Proof.
  intros Hm Hk u. destruct (Hm u) as [H1 H2]. apply (sbind_procs (λ t, s_procs t = s_procs u)); [done|done|].
  intros a _. destruct (Hk a (so_sys (m u))) as [K1 K2]. rewrite H2 in K1, K2. exact (conj K1 K2).
Qed.
Lemma nk_fs {A : Type} (m : M A) : no_kill (lift_fs m).
Proof.
  intros u. unfold lift_fs. cbn [so_sys so_trace]. split; [|done]. apply Forall_fmap, Forall_forall. done.
Qed.
Lemma nk_ret {A : Type} (a : A) : no_kill (sret a).
Proof. intros u. by split; [constructor|]. Qed.
Lemma nk_get {A : Type} (r : sys → res A) : no_kill (sget r).
Proof. intros u. by split; [constructor|]. Qed.

Lemma delete_one_step (umask : N) (ord : list N → list N) (busy : path → bool) (dord : list path → list path)
    (storage : path) (name : string) (s : sys) :
  (∀ l, dord l ≡ₚ l) → tidy storage name s →
  Forall (step_of storage name s)
    (so_sys (delete_one umask ord busy dord storage name s) :: so_trace (delete_one umask ord busy dord storage name s)).
Proof.
  intros Hord Hs. pose proof (tidy_inv _ _ _ Hs) as HI.
  apply all_and; [|apply all_and].
  - apply (striple_all _ (Inv storage name (s_fs s)) _ (λ _ _, True)); [|done].
    pose proof (td_storage _ _ _ Hs) as Hd. pose proof (td_name _ _ _ Hs) as Hn.
    unfold delete_one. eapply st_bind; [by apply op_get_or_stopped|]. intros sb.
    intros t (Ht & E1 & E2).
    destruct (op_sandbox_delete storage name (s_fs s) Hd Hn ord busy dord sb Hord E1 E2 t Ht) as (A & B & _).
    done.
  - destruct (stop_attributed umask ord storage name s
      (λ sb, unmount busy (base_of (sb_storage sb) (sb_name sb)) ;~
             there <~~ sget (λ s, Ok (exists_ (s_fs s) (base_of (sb_storage sb) (sb_name sb)))) ;~
             (if there then lift_fs (rmdir_rec dord (base_of (sb_storage sb) (sb_name sb))) else sret tt) ;~
             lift_fs (sys_unlink (lock_of (sb_storage sb) (sb_name sb))))) as [A B];
      [|done|by constructor].
    intros sb. apply nk_bind.
    { intros u. by destruct (unmount_procs busy (base_of (sb_storage sb) (sb_name sb)) u) as (C1 & C2 & _). }
    intros _. apply nk_bind; [apply nk_get|]. intros there.
    apply nk_bind; [destruct there; [apply nk_fs|apply nk_ret]|]. intros _. apply nk_fs.
  - pose proof (nm_get_or_stopped (base_of storage name) umask storage name s) as Hg.
    destruct (op_get_or_stopped storage name (s_fs s) (td_storage _ _ _ Hs) (td_name _ _ _ Hs) umask s HI) as (_ & _ & Hr).
    unfold delete_one. revert Hg Hr. generalize (sandbox_get_or_stopped umask storage name) as g. intros g Hg Hr.
    unfold sbind. apply Forall_cons in Hg as [H1 H2].
    destruct (so_res (g s)) as [sb|e]; cbn [so_sys so_trace]; [|by constructor].
    destruct (Hr sb eq_refl) as (_ & E1 & E2).
    assert (base_of storage name = base_of (sb_storage sb) (sb_name sb)) as Eb by (by rewrite E1, E2).
    pose proof (nm_delete _ ord busy dord sb Eb (so_sys (g s))) as Hk.
    revert Hk. generalize (sandbox_delete ord busy dord sb (so_sys (g s))) as o. intros o Hk.
    apply Forall_cons in Hk as [K1 K2]. constructor; [by eapply fewer_trans|].
    apply Forall_app. split; [done|]. eapply Forall_impl; [exact K2|]. intros t Ht. cbn beta in *. by eapply fewer_trans.
Qed.

(** *** Several sandboxes one after the other *)
Definition new_files (storage : path) (f f' : fs) : Prop :=
  ∀ q n, f' !! q = Some n →
    f !! q = Some n ∨ n_kind n = KDir ∨ (∃ name, q = lock_of storage name) ∧ n_kind n = KFile "".
Record progress (W : string → Prop) (storage : path) (rest : list string) (s t : sys) : Prop := {
  pg_tidy : ∀ name, name ∈ rest → tidy storage name t ∧ W name;
  pg_deep : deep_mounts storage t;
  pg_only : only_of W storage s t;
  pg_new : new_files storage (s_fs s) (s_fs t);
}.

Lemma recorded_back (W : string → Prop) (storage : path) (s t : sys) (name : string) (r : proc) :
  only_of W storage s t → new_files storage (s_fs s) (s_fs t) →
  recorded_process t storage name r → recorded_process s storage name r.
Proof.
  intros (_ & Hp & _ & _ & _) Hn (n & c & z & E1 & E2 & E3 & E4 & E5). exists n, c, z.
  split; [|by eauto]. destruct (Hn _ _ E1) as [H|[H|[[x H] _]]]; [done|congruence|].
  unfold pid_of, lock_of in H. apply app_inj_tail in H as [_ H]. symmetry in H. by apply lock_not_pid in H.
Qed.

Lemma other_outside (storage : path) (n1 n2 : string) (y : string) (r : path) : n1 ≠ n2 →
  ¬ of_sandbox storage n1 (storage ++ n2 :: y :: r).
Proof.
  intros Hne [H|[H|H]].
  - apply under_spec in H as [z H]. unfold base_of in H. rewrite <-app_assoc in H.
    apply app_inv_head in H. by injection H as ->.
  - unfold lock_of in H. apply app_inv_head in H. done.
  - unfold pid_of in H. apply app_inv_head in H. done.
Qed.

Lemma progress_step (W : string → Prop) (storage : path) (name : string) (rest : list string) (s t u : sys) :
  name ∉ rest → progress W storage (name :: rest) s t → step_of storage name t u →
  progress W storage rest s u.
Proof.
  intros Hnr [H1 H2 H3 H4] (F & At & Hm).
  destruct (H1 name (elem_of_list_here _ _)) as [Ht Hw]. split.
  - intros n2 Hn2. destruct (H1 n2 ltac:(by right)) as [[T1 T2 T3 T4 T5 T6 T7] Hw2]. split; [|done].
    assert (∀ q, not_link (s_fs t) q → not_link (s_fs u) q) as Hnl.
    { intros q Hq n Hn. destruct (fr_new _ _ _ _ F q n Hn) as [E|[E|[_ E]]]; [by apply Hq|by rewrite E|by rewrite E]. }
    split.
    + apply F.
    + eapply only_storage; [apply F|done].
    + done.
    + by apply Hnl.
    + by apply Hnl.
    + by apply Hnl.
    + intros m Hmu Hub. apply (fewer_in _ _ _ _ Hm) in Hmu. destruct (T7 m Hmu Hub) as (A & B & C). split; [|done].
      rewrite (fr_only _ _ _ _ F); [done|].
      assert (under storage (mt_at m) = true) as Hus.
      { apply under_spec in Hub as [z ->]. apply under_spec. unfold base_of. rewrite <-app_assoc. by eexists. }
      destruct (H2 m Hmu Hus) as (x & y & r & E). rewrite E in *.
      assert (x = n2) as ->.
      { apply under_spec in Hub as [z Hz]. unfold base_of in Hz. rewrite <-app_assoc in Hz.
        apply app_inv_head in Hz. by injection Hz as ->. }
      apply other_outside. intros ->. done.
  - intros m Hmu. apply H2. by eapply fewer_in.
  - pose proof (recorded_back W storage s t) as Hback. destruct H3 as (O1 & O2 & O3 & O4 & O5). destruct At as [P1 P2].
    split; [|split; [|split; [|split]]].
    + intros q Hq. rewrite (fr_only _ _ _ _ F); [by apply O1|]. by apply Hq.
    + intros k p Hk. by apply O2, P1.
    + intros k p Hk Hn. destruct (s_procs t !! k) as [p'|] eqn:Et; [|by apply (O3 k p)].
      assert (p' = p) as -> by (apply O2 in Et; congruence).
      destruct (P2 k p Et Hn) as (r & Hr & Hi). exists name, r. split; [done|]. split; [|done].
      apply Hback; [by split; [|split; [|split; [|split]]]|done|done].
    + intros m Hm'. apply O4. by eapply fewer_in.
    + intros m Hm1 Hm2. destruct Hm as [_ Hm]. apply Hm; [by apply O5|by apply Hm2].
  - intros q n Hq. destruct (fr_new _ _ _ _ F q n Hq) as [E|[E|[E E']]].
    + by apply H4.
    + right. by left.
    + right. right. split; [|done]. by exists name.
Qed.

Lemma progress_all (W : string → Prop) (storage : path) (name : string) (rest : list string) (s t : sys) (l : list sys) :
  name ∉ rest → progress W storage (name :: rest) s t → Forall (step_of storage name t) l →
  Forall (progress W storage rest s) l.
Proof. intros H1 H2 H3. eapply Forall_impl; [exact H3|]. intros u Hu. by eapply progress_step. Qed.
Lemma progress_less (W : string → Prop) (storage : path) (rest rest' : list string) (s t : sys) :
  rest' ⊆ rest → progress W storage rest s t → progress W storage rest' s t.
Proof. intros H [H1 H2 H3 H4]. split; [|done..]. intros n Hn. by apply H1, H. Qed.

(** One round of a loop whose body tolerates the failure of [d]. *)
Definition tolerant {A B C D : Type} (g : S_ A) (d : A → S_ B) (r : S_ C) (fin : bool → C → D) : S_ D :=
  a <~~ g ;~
  ok <~~ (λ s, let o := d a s in SOut (so_trace o) (so_sys o) (Ok (is_ok (so_res o)))) ;~
  c <~~ r ;~
  sret (fin ok c).
Lemma tolerant_shape {A B C D : Type} (g : S_ A) (d : A → S_ B) (r : S_ C) (fin : bool → C → D) (t : sys) :
  (so_sys (tolerant g d r fin t) = so_sys (sbind g d t) ∧
   so_trace (tolerant g d r fin t) = so_trace (sbind g d t)) ∨
  (so_sys (tolerant g d r fin t) = so_sys (r (so_sys (sbind g d t))) ∧
   so_trace (tolerant g d r fin t) = so_trace (sbind g d t) ++ so_trace (r (so_sys (sbind g d t)))).
Proof.
  unfold tolerant, sbind, sret. destruct (g t) as [tr s1 [a|e]]; cbn [so_sys so_trace so_res]; [|by left].
  right. destruct (d a s1) as [tr2 s2 r2]; cbn [so_sys so_trace so_res].
  destruct (r s2) as [tr3 s3 [c|e]]; cbn [so_sys so_trace so_res]; (split; [done|]).
  - by rewrite app_nil_r, app_assoc.
  - by rewrite app_assoc.
Qed.
Lemma delete_each_tolerant (umask : N) (ord : list N → list N) (busy : path → bool) (dord : list path → list path)
    (storage : path) (name : string) (l : list string) :
  delete_each umask ord busy dord storage (name :: l) =
  tolerant (sandbox_get_or_stopped umask storage name) (sandbox_delete ord busy dord)
    (delete_each umask ord busy dord storage l)
    (λ (ok : bool) r, if ok then (name :: r.1, r.2) else (r.1, S r.2)).
Proof. reflexivity. Qed.
Lemma delete_each_cons (umask : N) (ord : list N → list N) (busy : path → bool) (dord : list path → list path)
    (storage : path) (name : string) (l : list string) (t : sys) :
  (so_sys (delete_each umask ord busy dord storage (name :: l) t) =
     so_sys (delete_one umask ord busy dord storage name t) ∧
   so_trace (delete_each umask ord busy dord storage (name :: l) t) =
     so_trace (delete_one umask ord busy dord storage name t)) ∨
  (so_sys (delete_each umask ord busy dord storage (name :: l) t) =
     so_sys (delete_each umask ord busy dord storage l (so_sys (delete_one umask ord busy dord storage name t))) ∧
   so_trace (delete_each umask ord busy dord storage (name :: l) t) =
     so_trace (delete_one umask ord busy dord storage name t) ++
     so_trace (delete_each umask ord busy dord storage l (so_sys (delete_one umask ord busy dord storage name t)))).
Proof. rewrite delete_each_tolerant. unfold delete_one. apply tolerant_shape. Qed.

Lemma delete_each_progress (W : string → Prop) (umask : N) (ord : list N → list N) (busy : path → bool)
    (dord : list path → list path) (storage : path) (s : sys) : (∀ l, dord l ≡ₚ l) →
  ∀ names t, NoDup names → progress W storage names s t →
  Forall (progress W storage [] s)
    (so_sys (delete_each umask ord busy dord storage names t) :: so_trace (delete_each umask ord busy dord storage names t)).
Proof.
  intros Hord names. induction names as [|name l IH]; intros t Hnd Hp.
  { constructor; [done|constructor]. }
  apply NoDup_cons in Hnd as [Hn Hnd].
  destruct (pg_tidy _ _ _ _ _ Hp name (elem_of_list_here _ _)) as [Ht _].
  pose proof (progress_all W storage name l s t _ Hn Hp
    (delete_one_step umask ord busy dord storage name t Hord Ht)) as Hall.
  apply Forall_cons in Hall as [Hd Htr].
  assert (Forall (progress W storage [] s) (so_trace (delete_one umask ord busy dord storage name t))) as Htr0.
  { eapply Forall_impl; [exact Htr|]. intros u Hu. eapply progress_less; [|exact Hu]. apply list_subseteq_nil. }
  destruct (delete_each_cons umask ord busy dord storage name l t) as [[E1 E2]|[E1 E2]]; rewrite E1, E2.
  - constructor; [|exact Htr0]. eapply progress_less; [|exact Hd]. apply list_subseteq_nil.
  - specialize (IH _ Hnd Hd). apply Forall_cons in IH as [I1 I2]. constructor; [exact I1|].
    by apply Forall_app.
Qed.

Lemma ascending_nodup (l : list string) : ascending l → NoDup l.
Proof.
  induction 1 as [|x l Hl IH Hx]; constructor; [|done]. intros H. rewrite Forall_forall in Hx.
  specialize (Hx x H). rewrite (proj2 (ct_eq _ str_cmp_total x x) eq_refl) in Hx. done.
Qed.

(** What the storage directory has to look like: UTF-8 names, pid files as the program writes them, the
    selected names legal file names, their files not symbolic links, mounts where the program makes them. *)
Record tidy_storage (W : string → Prop) (storage : path) (s : sys) : Prop := {
  ts_wf : wf_tree (s_fs s);
  ts_dir : is_dir_at (s_fs s) storage;
  ts_pids : pid_files_ok s storage;
  ts_utf8 : ∀ x, is_Some (s_fs s !! (storage ++ [x])) → utf8_valid x = true;
  ts_names : ∀ name, W name → tidy storage name s;
  ts_mounts : deep_mounts storage s;
}.
Lemma progress_start (W : string → Prop) (storage : path) (names : list string) (s : sys) :
  tidy_storage W storage s → (∀ name, name ∈ names → W name) → progress W storage names s s.
Proof.
  intros Hs Hn. split.
  - intros name H. split; [|by apply Hn]. apply (ts_names _ _ _ Hs). by apply Hn.
  - apply (ts_mounts _ _ _ Hs).
  - split; [done|]. split; [done|]. split; [intros k p H1 H2; congruence|]. by split.
  - intros q n Hq. by left.
Qed.

(** *** What is reported *)
(** The names are not each other's lock or pid files (C41). *)
Definition apart (W : string → Prop) : Prop :=
  ∀ a b, W a → W b → a ≠ b +:+ ".lock" ∧ a ≠ b +:+ ".pid".
Lemma apart_disjoint (W : string → Prop) (storage : path) (a b : string) (q : path) :
  apart W → W a → W b → a ≠ b → of_sandbox storage a q → ¬ of_sandbox storage b q.
Proof.
  intros H Ha Hb Hne [H1|[H1|H1]] [H2|[H2|H2]]; try (subst q).
  - apply under_spec in H1 as [z ->]. apply under_spec in H2 as [z' H2]. unfold base_of in H2.
    rewrite <-!app_assoc in H2. apply app_inv_head in H2. by injection H2.
  - apply under_spec in H1 as [z H1]. unfold base_of, lock_of in H1. rewrite <-app_assoc in H1.
    apply app_inv_head in H1. injection H1 as H1 _. destruct (H a b Ha Hb); congruence.
  - apply under_spec in H1 as [z H1]. unfold base_of, pid_of in H1. rewrite <-app_assoc in H1.
    apply app_inv_head in H1. injection H1 as H1 _. destruct (H a b Ha Hb); congruence.
  - apply under_spec in H2 as [z H1]. unfold base_of, lock_of in H1. rewrite <-app_assoc in H1.
    apply app_inv_head in H1. injection H1 as H1 _. destruct (H b a Hb Ha); congruence.
  - unfold lock_of in H2. apply app_inj_tail in H2 as [_ H2]. by apply str_app_eq_r in H2.
  - unfold lock_of, pid_of in H2. apply app_inj_tail in H2 as [_ H2]. by apply lock_not_pid in H2.
  - apply under_spec in H2 as [z H1]. unfold base_of, pid_of in H1. rewrite <-app_assoc in H1.
    apply app_inv_head in H1. injection H1 as H1 _. destruct (H b a Hb Ha); congruence.
  - unfold lock_of, pid_of in H2. apply app_inj_tail in H2 as [_ H2]. symmetry in H2. by apply lock_not_pid in H2.
  - unfold pid_of in H2. apply app_inj_tail in H2 as [_ H2]. by apply str_app_eq_r in H2.
Qed.
Lemma storage_outside (storage : path) (name : string) : ¬ of_sandbox storage name storage.
Proof.
  intros [H|[H|H]].
  - apply under_spec in H as [z H]. unfold base_of in H. rewrite <-app_assoc in H.
    apply (f_equal length) in H. rewrite app_length in H. simpl in H. lia.
  - symmetry in H. by apply snoc_ne_self in H.
  - symmetry in H. by apply snoc_ne_self in H.
Qed.

Lemma sublist_fmap_nodup {A B : Type} (g : A → B) (l l' : list A) :
  sublist l' l → NoDup (g <$> l) → NoDup (g <$> l').
Proof.
  induction 1 as [|x l1 l2 Hs IH|x l1 l2 Hs IH]; [done|..]; rewrite !fmap_cons, !NoDup_cons.
  - intros [H1 H2]. split; [|by apply IH]. intros (y & Ey & Hy)%elem_of_list_fmap. apply H1. rewrite Ey.
    apply elem_of_list_fmap_1. by eapply elem_of_submseteq; [|apply sublist_submseteq].
  - intros [H1 H2]. by apply IH.
Qed.
Lemma deletable_step (W : string → Prop) (storage : path) (a b : string) (dev : N) (t u : sys) :
  apart W → W a → W b → a ≠ b → step_of storage a t u → deletable storage b dev t → deletable storage b dev u.
Proof.
  intros Hap Ha Hb Hne (F & [P1 P2] & [M1 M2]) [H1 H2 [H3 H3'] H4 (H5 & H6 & H7)].
  assert (∀ q, of_sandbox storage b q → s_fs u !! q = s_fs t !! q) as Hk.
  { intros q Hq. apply (fr_only _ _ _ _ F). intros Hq'. by apply (apart_disjoint W storage a b q). }
  assert (∀ m, m ∈ s_mounts u → m ∈ s_mounts t) as Hm.
  { intros m. by apply (fewer_in (base_of storage a)). }
  split.
  - destruct H1 as (n & A & B). exists n. split; [|done]. rewrite Hk; [done|]. left. apply under_refl.
  - intros n Hn. apply H2. rewrite <-Hk; [done|]. right. by left.
  - split.
    + intros n Hn. apply H3. rewrite <-Hk; [done|]. right. by right.
    + intros r (n & c & z & E1 & E2 & E3 & E4 & E5) k p Hkp Hns.
      refine (H3' r _ k p (P1 _ _ Hkp) Hns). exists n, c, z.
      rewrite <-Hk by (right; by right). split; [done|]. split; [done|]. split; [done|]. split; [done|].
      by apply P1.
  - destruct H4 as (n & A & B). exists n. split; [|done]. rewrite (fr_only _ _ _ _ F); [done|]. apply storage_outside.
  - split; [|split].
    + by eapply sublist_fmap_nodup.
    + intros m Hmu. by apply H6, Hm.
    + intros q n Hq Hn Hnm. apply (H7 q); [done|by rewrite <-Hk by (by left)|].
      intros m Hmt Hub. apply Hnm; [|done]. apply M2; [done|].
      destruct (under (base_of storage a) (mt_at m)) eqn:Eu; [|done].
      exfalso. apply (apart_disjoint W storage a b (mt_at m)); [done..| |]; by left.
Qed.

Lemma delete_one_ok (umask : N) (ord : list N → list N) (busy : path → bool) (dord : list path → list path)
    (storage : path) (name : string) (dev : N) (s : sys) :
  tidy storage name s → (∀ l, dord l ≡ₚ l) → (∀ p, busy p = false) → deletable storage name dev s →
  so_res (delete_one umask ord busy dord storage name s) = Ok tt.
Proof.
  intros Ht Hord Hbusy Hdel. pose proof (tidy_inv _ _ _ Ht) as HI.
  pose proof (td_storage _ _ _ Ht) as Hd. pose proof (td_name _ _ _ Ht) as Hn.
  destruct (get_or_stopped_ok umask storage name (s_fs s) dev s Hd Hn HI Hdel) as (A1 & A2 & A3 & A4 & A5).
  unfold delete_one. rewrite (sbind_ok_res _ _ _ _ A1).
  apply (delete_ok storage name (s_fs s) ord busy dord dev); [exact Hd|exact Hn|exact A2|exact Hord|exact Hbusy|reflexivity|reflexivity| |exact A3|exact A4].
  intros z r Ez Er k p Hk Hns. rewrite A5 in Hk.
  assert (proc_of s z = Some r) as Er' by (unfold proc_of in Er |- *; rewrite A5 in Er; exact Er).
  pose proof (the_sandbox_pid storage name (s_fs s) s z r Hd Hn HI Ez Er') as Hrec.
  exact (proj2 (dl_stop _ _ _ _ Hdel) r Hrec k p Hk Hns).
Qed.
Lemma delete_one_gone (umask : N) (ord : list N → list N) (busy : path → bool) (dord : list path → list path)
    (storage : path) (name : string) (s : sys) :
  tidy storage name s → (∀ l, dord l ≡ₚ l) →
  so_res (delete_one umask ord busy dord storage name s) = Ok tt →
  deleted storage name (s_fs (so_sys (delete_one umask ord busy dord storage name s))).
Proof.
  intros Hs Hord. pose proof (tidy_inv _ _ _ Hs) as HI.
  pose proof (td_storage _ _ _ Hs) as Hd. pose proof (td_name _ _ _ Hs) as Hn.
  assert (striple (Frame storage name (s_fs s)) (Inv storage name (s_fs s))
    (delete_one umask ord busy dord storage name) (λ _ t, deleted storage name (s_fs t))) as H.
  { unfold delete_one. eapply st_bind; [by apply op_get_or_stopped|]. intros sb.
    intros t (Ht & E1 & E2).
    destruct (op_sandbox_delete storage name (s_fs s) Hd Hn ord busy dord sb Hord E1 E2 t Ht) as (A & B & C).
    split; [done|]. split; [done|]. intros a Ea. destruct (C a Ea) as (_ & C1 & C2 & C3).
    split; [|done]. intros q Hq. by apply C2. }
  intros E. destruct (H s HI) as (_ & _ & C). by apply (C tt).
Qed.

(** One round again: what it returns. *)
Lemma tolerant_res {A B C D : Type} (g : S_ A) (d : A → S_ B) (r : S_ C) (fin : bool → C → D) (t : sys) (x : D) :
  so_res (tolerant g d r fin t) = Ok x →
  ∃ c, so_res (r (so_sys (sbind g d t))) = Ok c ∧ x = fin (is_ok (so_res (sbind g d t))) c ∧
       so_sys (tolerant g d r fin t) = so_sys (r (so_sys (sbind g d t))).
Proof.
  unfold tolerant, sbind, sret. destruct (g t) as [tr s1 [a|e]]; cbn [so_sys so_trace so_res]; [|done].
  destruct (d a s1) as [tr2 s2 r2]; cbn [so_sys so_trace so_res].
  destruct (r s2) as [tr3 s3 [c|e]]; cbn [so_sys so_trace so_res]; [|done].
  intros E. injection E as <-. by exists c.
Qed.
Lemma tolerant_ok {A B C D : Type} (g : S_ A) (d : A → S_ B) (r : S_ C) (fin : bool → C → D) (t : sys) (b : B) (c : C) :
  so_res (sbind g d t) = Ok b → so_res (r (so_sys (sbind g d t))) = Ok c →
  so_res (tolerant g d r fin t) = Ok (fin true c).
Proof.
  unfold tolerant, sbind, sret. destruct (g t) as [tr s1 [a|e]]; cbn [so_sys so_trace so_res]; [|done].
  destruct (d a s1) as [tr2 s2 r2]; cbn [so_sys so_trace so_res]. intros ->.
  destruct (r s2) as [tr3 s3 r3]; cbn [so_sys so_trace so_res]. by intros ->.
Qed.

Lemma delete_each_keeps (umask : N) (ord : list N → list N) (busy : path → bool) (dord : list path → list path)
    (storage : path) (names : list string) (t : sys) (q : path) :
  (∀ l, dord l ≡ₚ l) → NoDup names → deep_mounts storage t → (∀ name, name ∈ names → tidy storage name t) →
  (∀ name, name ∈ names → ¬ of_sandbox storage name q) →
  s_fs (so_sys (delete_each umask ord busy dord storage names t)) !! q = s_fs t !! q.
Proof.
  intros Hord Hnd Hdm Ht Hq.
  assert (progress (λ n, n ∈ names) storage names t t) as Hp.
  { split; [auto|done| |intros ? ? ?; by left]. split; [done|]. split; [done|]. split; [intros ? ? ? ?; congruence|]. by split. }
  pose proof (delete_each_progress _ umask ord busy dord storage t Hord names t Hnd Hp) as H.
  apply Forall_cons in H as [H _]. by apply (pg_only _ _ _ _ _ H).
Qed.

Lemma delete_each_report (W : string → Prop) (umask : N) (ord : list N → list N) (busy : path → bool)
    (dord : list path → list path) (storage : path) (s : sys) : (∀ l, dord l ≡ₚ l) → apart W →
  ∀ names t d e, NoDup names → progress W storage names s t →
  so_res (delete_each umask ord busy dord storage names t) = Ok (d, e) →
  sublist d names ∧ length d + e = length names ∧
  ∀ n, n ∈ d → deleted storage n (s_fs (so_sys (delete_each umask ord busy dord storage names t))).
Proof.
  intros Hord Hap names. induction names as [|name l IH]; intros t d e Hnd Hp.
  { intros E. cbn [delete_each] in E. unfold sret in E. cbn [so_res] in E. injection E as <- <-.
    split; [done|]. split; [done|]. intros n Hn. by apply elem_of_nil in Hn. }
  apply NoDup_cons in Hnd as [Hn Hnd].
  destruct (pg_tidy _ _ _ _ _ Hp name (elem_of_list_here _ _)) as [Ht Hw].
  pose proof (progress_all W storage name l s t _ Hn Hp
    (delete_one_step umask ord busy dord storage name t Hord Ht)) as Hall.
  apply Forall_cons in Hall as [Hd _].
  pose proof (delete_one_gone umask ord busy dord storage name t Ht Hord) as Hgone.
  rewrite delete_each_tolerant. intros E. apply tolerant_res in E as (c & E1 & E2 & E3).
  rewrite E3. clear E3. fold (delete_one umask ord busy dord storage name) in E1, E2 |- *.
  revert E1 E2 Hd Hgone. generalize (delete_one umask ord busy dord storage name t) as o. intros o E1 E2 Hd Hgone.
  destruct c as [d' e']. cbn [fst snd] in E2.
  destruct (IH _ _ _ Hnd Hd E1) as (I1 & I2 & I3).
  destruct (so_res o) as [[]|er]; cbn [is_ok] in E2; injection E2 as -> ->.
  - split; [by apply sublist_skip|]. split; [simpl; lia|]. intros n Hin.
    apply elem_of_cons in Hin as [-> |Hin]; [|by apply I3].
    specialize (Hgone eq_refl).
    assert (∀ q, of_sandbox storage name q →
      s_fs (so_sys (delete_each umask ord busy dord storage l (so_sys o))) !! q = s_fs (so_sys o) !! q) as Hk.
    { intros q Hq. apply delete_each_keeps; [done|done|apply Hd|..].
      - intros x Hx. by apply (pg_tidy _ _ _ _ _ Hd).
      - intros x Hx. destruct (pg_tidy _ _ _ _ _ Hd x Hx) as [_ Hwx].
        apply (apart_disjoint W storage name x q); [done..| |done]. intros ->. done. }
    destruct Hgone as (G1 & G2 & G3). split; [|split].
    + intros q Hq. rewrite Hk by (by left). by apply G1.
    + rewrite Hk by (right; by left). exact G2.
    + rewrite Hk by (right; by right). exact G3.
  - split; [by apply sublist_cons|]. split; [simpl; lia|]. exact I3.
Qed.
Lemma delete_each_complete (W : string → Prop) (umask : N) (ord : list N → list N) (busy : path → bool)
    (dord : list path → list path) (storage : path) (dev : N) (s : sys) :
  (∀ l, dord l ≡ₚ l) → (∀ p, busy p = false) → apart W →
  ∀ names t, NoDup names → progress W storage names s t → (∀ n, n ∈ names → deletable storage n dev t) →
  so_res (delete_each umask ord busy dord storage names t) = Ok (names, 0).
Proof.
  intros Hord Hbusy Hap names. induction names as [|name l IH]; intros t Hnd Hp Hdel; [done|].
  apply NoDup_cons in Hnd as [Hn Hnd].
  destruct (pg_tidy _ _ _ _ _ Hp name (elem_of_list_here _ _)) as [Ht Hw].
  pose proof (delete_one_step umask ord busy dord storage name t Hord Ht) as Hst.
  pose proof (progress_all W storage name l s t _ Hn Hp Hst) as Hall.
  apply Forall_cons in Hall as [Hd _]. apply Forall_cons in Hst as [Hst _].
  pose proof (delete_one_ok umask ord busy dord storage name dev t Ht Hord Hbusy (Hdel name ltac:(left))) as Hok.
  assert (∀ n, n ∈ l → deletable storage n dev (so_sys (delete_one umask ord busy dord storage name t))) as Hdel'.
  { intros n Hin. destruct (pg_tidy _ _ _ _ _ Hd n Hin) as [_ Hwn].
    apply (deletable_step W storage name n dev t); [done..| |done|].
    - intros ->. done.
    - apply Hdel. by right. }
  rewrite delete_each_tolerant. unfold delete_one in Hok.
  erewrite tolerant_ok; [|exact Hok|exact (IH _ Hnd Hd Hdel')]. reflexivity.
Qed.

(** *** Deleting by pattern *)
Lemma delete_action_patterns (umask : N) (ord : list N → list N) (busy : path → bool)
    (dord : list path → list path) (glob : string → string → bool) (storage : path) (cfg_name : string)
    (patterns : list string) (confirmed : bool) (s : sys) (run stopped : list string) :
  patterns ≠ [] → get_sandboxes glob s storage patterns = Ok (run, stopped) →
  delete_action umask ord busy dord glob storage cfg_name patterns confirmed s =
  (if confirmed then delete_each umask ord busy dord storage (run ++ stopped) else sret ([], 0)) s.
Proof.
  intros Hp E. unfold delete_action. destruct patterns as [|p ps]; [done|]. unfold sbind, sget. rewrite E.
  cbn [rbind so_res so_sys so_trace].
  destruct (run ++ stopped) as [|n l]; [by destruct confirmed|]. destruct confirmed; [|done].
  by destruct (delete_each umask ord busy dord storage (n :: l) s).
Qed.
Lemma listed_names (glob : string → string → bool) (patterns : list string) (s : sys) (storage : path) :
  tidy_storage (listed glob patterns (s_fs s) storage) storage s →
  ∃ run stopped, get_sandboxes glob s storage patterns = Ok (run, stopped) ∧ NoDup (run ++ stopped) ∧
    ∀ name, name ∈ run ++ stopped ↔ listed glob patterns (s_fs s) storage name.
Proof.
  intros Hs.
  destruct (C60_listing_exact_partial glob patterns s storage) as (run & stopped & E & A1 & A2 & S1 & S2);
    [apply Hs..|].
  exists run, stopped. split; [done|]. split.
  - apply NoDup_app. split; [by apply ascending_nodup|]. split; [|by apply ascending_nodup].
    intros x H1 H2. apply S1 in H1 as [_ H1]. apply S2 in H2 as [_ H2]. done.
  - intros name. rewrite elem_of_app, S1, S2. split; [tauto|]. intros Hl.
    destruct (decide (name ∈ run)) as [Hr|Hr]; [left; by apply S1|].
    right. split; [done|]. intros H. apply Hr. by apply S1.
Qed.

(** At every moment only matching sandboxes are affected, and nothing without confirmation. *)
Theorem C61_delete_only_matching_partial (umask : N) (ord : list N → list N) (busy : path → bool)
    (dord : list path → list path) (glob : string → string → bool) (storage : path) (cfg_name : string)
    (patterns : list string) (confirmed : bool) (s : sys) :
  (∀ l, dord l ≡ₚ l) → patterns ≠ [] →
  tidy_storage (listed glob patterns (s_fs s) storage) storage s →
  ∀ t, t ∈ so_sys (delete_action umask ord busy dord glob storage cfg_name patterns confirmed s) ::
      so_trace (delete_action umask ord busy dord glob storage cfg_name patterns confirmed s) →
    only_of (listed glob patterns (s_fs s) storage) storage s t ∧ (confirmed = false → t = s).
Proof.
  intros Hord Hp Hs.
  destruct (listed_names glob patterns s storage Hs) as (run & stopped & E & Hnd & Hw).
  rewrite (delete_action_patterns _ _ _ _ _ _ _ _ _ _ run stopped Hp E).
  revert Hs Hw. generalize (listed glob patterns (s_fs s) storage) as W. intros W Hs Hw.
  pose proof (progress_start W storage (run ++ stopped) s Hs (λ n H, proj1 (Hw n) H)) as Hstart.
  intros t Ht. destruct confirmed.
  - pose proof (delete_each_progress W umask ord busy dord storage s Hord _ _ Hnd Hstart) as Hall.
    rewrite Forall_forall in Hall. split; [|done]. apply (Hall t Ht).
  - apply elem_of_list_singleton in Ht as ->. split; [apply Hstart|done].
Qed.
Print Assumptions C61_delete_only_matching_partial.

(** The report: every matching sandbox is accounted for, as deleted or as an error; those reported as
    deleted are gone. *)
Theorem C61_delete_report_partial (umask : N) (ord : list N → list N) (busy : path → bool)
    (dord : list path → list path) (glob : string → string → bool) (storage : path) (cfg_name : string)
    (patterns : list string) (s : sys) (done : list string) (errors : nat) :
  (∀ l, dord l ≡ₚ l) → patterns ≠ [] →
  tidy_storage (listed glob patterns (s_fs s) storage) storage s →
  apart (listed glob patterns (s_fs s) storage) →
  so_res (delete_action umask ord busy dord glob storage cfg_name patterns true s) = Ok (done, errors) →
  (∀ name, name ∈ done → listed glob patterns (s_fs s) storage name ∧
     deleted storage name (s_fs (so_sys (delete_action umask ord busy dord glob storage cfg_name patterns true s)))) ∧
  ∃ all, NoDup all ∧ (∀ name, name ∈ all ↔ listed glob patterns (s_fs s) storage name) ∧
    length done + errors = length all.
Proof.
  intros Hord Hp Hs Hap.
  destruct (listed_names glob patterns s storage Hs) as (run & stopped & E & Hnd & Hw).
  rewrite !(delete_action_patterns _ _ _ _ _ _ _ _ _ _ run stopped Hp E).
  revert Hs Hap Hw. generalize (listed glob patterns (s_fs s) storage) as W. intros W Hs Hap Hw Er.
  pose proof (progress_start W storage (run ++ stopped) s Hs (λ n H, proj1 (Hw n) H)) as Hstart.
  destruct (delete_each_report W umask ord busy dord storage s Hord Hap _ _ _ _ Hnd Hstart Er) as (R1 & R2 & R3).
  split.
  - intros name Hn. split; [|by apply R3]. apply Hw. by eapply elem_of_submseteq; [|apply sublist_submseteq].
  - by exists (run ++ stopped).
Qed.
Print Assumptions C61_delete_report_partial.

(** Nothing in the way: all matching sandboxes are deleted. *)
Theorem C61_delete_all_matching (umask : N) (ord : list N → list N) (busy : path → bool)
    (dord : list path → list path) (glob : string → string → bool) (storage : path) (cfg_name : string)
    (patterns : list string) (dev : N) (s : sys) :
  (∀ l, dord l ≡ₚ l) → (∀ p, busy p = false) → patterns ≠ [] →
  tidy_storage (listed glob patterns (s_fs s) storage) storage s →
  apart (listed glob patterns (s_fs s) storage) →
  (∀ name, listed glob patterns (s_fs s) storage name → deletable storage name dev s) →
  ∃ all, so_res (delete_action umask ord busy dord glob storage cfg_name patterns true s) = Ok (all, 0) ∧
    ∀ name, name ∈ all ↔ listed glob patterns (s_fs s) storage name.
Proof.
  intros Hord Hbusy Hp Hs Hap Hdel.
  destruct (listed_names glob patterns s storage Hs) as (run & stopped & E & Hnd & Hw).
  rewrite !(delete_action_patterns _ _ _ _ _ _ _ _ _ _ run stopped Hp E).
  revert Hs Hap Hw Hdel. generalize (listed glob patterns (s_fs s) storage) as W. intros W Hs Hap Hw Hdel.
  pose proof (progress_start W storage (run ++ stopped) s Hs (λ n H, proj1 (Hw n) H)) as Hstart.
  exists (run ++ stopped). split; [|done].
  apply (delete_each_complete W umask ord busy dord storage dev s); [done..|].
  intros n Hn. by apply Hdel, Hw.
Qed.
Print Assumptions C61_delete_all_matching.

(** *** Stopping by pattern *)
(** A sandbox is selected if its lock file is there and its name has a part matching one of the patterns. *)
Definition stop_listed (glob : string → string → bool) (patterns : list string) (f : fs) (storage : path)
    (name : string) : Prop :=
  is_Some (f !! lock_of storage name) ∧
  (patterns = [] ∨ ∃ p, p ∈ patterns ∧ glob ("*" +:+ p +:+ "*") name = true).

Lemma step_refl (storage : path) (name : string) (t : sys) : tidy storage name t → step_of storage name t t.
Proof.
  intros H. split; [by apply inv_frame, tidy_inv|]. split; [|apply fewer_refl].
  split; [done|]. intros k p H1 H2. congruence.
Qed.
(** The names still to be looked at. *)
Definition to_stop (glob : string → string → bool) (patterns : list string) (entries : list string) : list string :=
  omap (λ x, match lock_entry x with
             | Ok (Some n) => if match patterns with [] => true
                                 | _ => existsb (λ p, glob ("*" +:+ p +:+ "*") n) patterns end
                              then Some n else None
             | _ => None end) entries.
Definition stop_body (umask : N) (ord : list N → list N) (busy : path → bool)
    (glob : string → string → bool) (storage : path) (patterns : list string) (x : string) : S_ unit :=
  o <~~ sget (λ _, lock_entry x) ;~
  match o with
  | None => sret tt
  | Some name =>
      go <~~ sget (λ s, Ok (stop_all_wanted glob patterns (s_fs s) storage name)) ;~
      if go then ignore_err (stop_action umask ord busy storage name) else sret tt
  end.
Lemma sbind_get_eq {A B : Type} (r : sys → res A) (k : A → S_ B) (s : sys) (a : A) :
  r s = Ok a → sbind (sget r) k s = k a s.
Proof. intros E. unfold sbind, sget. rewrite E. cbn [so_res so_sys so_trace app]. by destruct (k a s). Qed.
Lemma stop_all_eq (umask : N) (ord : list N → list N) (busy : path → bool)
    (glob : string → string → bool) (storage : path) (patterns : list string) (s : sys) (entries : list string) :
  readdir (s_fs s) storage = Ok entries →
  stop_all umask ord busy glob storage patterns s =
  sfor entries (stop_body umask ord busy glob storage patterns) s.
Proof.
  intros E. unfold stop_all. rewrite (sbind_get_eq _ _ _ entries E). reflexivity.
Qed.
Lemma ignore_res (m : S_ unit) (s : sys) :
  so_res (ignore_err m s) = Ok tt ∧ so_sys (ignore_err m s) = so_sys (m s) ∧ so_trace (ignore_err m s) = so_trace (m s).
Proof. done. Qed.

Lemma stop_body_cases (umask : N) (ord : list N → list N) (busy : path → bool)
    (glob : string → string → bool) (storage : path) (patterns : list string) (x : string) (t : sys) :
  utf8_valid x = true →
  (to_stop glob patterns [x] = [] ∧
   stop_body umask ord busy glob storage patterns x t = SOut [] t (Ok tt)) ∨
  (∃ name, x = name +:+ ".lock" ∧ to_stop glob patterns [x] = [name] ∧
     ((stop_all_wanted glob patterns (s_fs t) storage name = false ∧
       stop_body umask ord busy glob storage patterns x t = SOut [] t (Ok tt)) ∨
      (stop_all_wanted glob patterns (s_fs t) storage name = true ∧
       stop_body umask ord busy glob storage patterns x t =
       SOut (so_trace (stop_action umask ord busy storage name t)) (so_sys (stop_action umask ord busy storage name t)) (Ok tt)))).
Proof.
  intros Hu. unfold stop_body, to_stop. cbn [omap list_omap].
  destruct (lock_entry_valid x Hu) as [(n & -> & ->)|(Hne & ->)].
  2:{ left. split; [done|]. done. }
  assert (match patterns with [] => true | _ => existsb (λ p, glob ("*" +:+ p +:+ "*") n) patterns end = false →
    stop_all_wanted glob patterns (s_fs t) storage n = false) as Hf.
  { intros H. unfold stop_all_wanted. rewrite H. by rewrite andb_false_r. }
  rewrite (sbind_get_eq _ _ _ (Some n) eq_refl), (sbind_get_eq _ _ _ (stop_all_wanted glob patterns (s_fs t) storage n) eq_refl).
  destruct (match patterns with [] => true | _ => _ end).
  - right. exists n. split; [done|]. split; [done|].
    destruct (stop_all_wanted glob patterns (s_fs t) storage n); [right|left]; (split; [reflexivity|]); reflexivity.
  - left. split; [done|]. rewrite (Hf eq_refl). done.
Qed.
Lemma to_stop_cons (glob : string → string → bool) (patterns : list string) (x : string) (l : list string) :
  to_stop glob patterns (x :: l) = to_stop glob patterns [x] ++ to_stop glob patterns l.
Proof. unfold to_stop. cbn [omap list_omap]. by destruct (match lock_entry x with Ok (Some _) => _ | _ => _ end). Qed.
Lemma to_stop_elem (glob : string → string → bool) (patterns : list string) (l : list string) (name : string) :
  (∀ x, x ∈ l → utf8_valid x = true) →
  name ∈ to_stop glob patterns l ↔
  name +:+ ".lock" ∈ l ∧ (patterns = [] ∨ ∃ p, p ∈ patterns ∧ glob ("*" +:+ p +:+ "*") name = true).
Proof.
  intros Hu. pose proof (patterns_spec (λ p, glob ("*" +:+ p +:+ "*")) patterns) as Hp. cbn beta in Hp.
  unfold to_stop. rewrite elem_of_list_omap. split.
  - intros (x & Hx & E). destruct (lock_entry_valid x (Hu x Hx)) as [(n & -> & E')|(_ & E')]; rewrite E' in E; [|done].
    specialize (Hp n). destruct (match patterns with [] => true | _ => _ end); [|done]. injection E as ->.
    split; [done|]. by apply Hp.
  - intros [Hx Hm]. exists (name +:+ ".lock"). split; [done|].
    destruct (lock_entry_valid _ (Hu _ Hx)) as [(n & E & ->)|(H & _)]; [|by destruct (H name)].
    apply str_app_eq_r in E as <-. apply Hp in Hm. by rewrite Hm.
Qed.
Lemma to_stop_nodup (glob : string → string → bool) (patterns : list string) (l : list string) :
  (∀ x, x ∈ l → utf8_valid x = true) → NoDup l → NoDup (to_stop glob patterns l).
Proof.
  intros Hu. induction 1 as [|x l Hx Hl IH]; [constructor|]. rewrite to_stop_cons.
  specialize (IH (λ y Hy, Hu y (elem_of_list_further _ _ _ Hy))).
  assert (∀ n, n ∈ to_stop glob patterns [x] → n +:+ ".lock" = x) as H1.
  { intros n Hn. apply to_stop_elem in Hn as [Hn _].
    - by apply elem_of_list_singleton in Hn.
    - intros y Hy. apply elem_of_list_singleton in Hy as ->. apply Hu. left. }
  apply NoDup_app. split; [|split; [|done]].
  - unfold to_stop. cbn [omap list_omap]. destruct (match lock_entry x with Ok (Some _) => _ | _ => _ end); [|constructor].
    apply NoDup_singleton.
  - intros n Hn Hn'. apply H1 in Hn as <-. apply to_stop_elem in Hn' as [Hn' _]; [done|].
    intros y Hy. apply Hu. by right.
Qed.

Lemma stop_loop_progress (W : string → Prop) (umask : N) (ord : list N → list N) (busy : path → bool)
    (glob : string → string → bool) (storage : path) (patterns : list string) (s : sys) :
  ∀ entries t, (∀ x, x ∈ entries → utf8_valid x = true) → NoDup entries →
  progress W storage (to_stop glob patterns entries) s t →
  Forall (progress W storage [] s)
    (so_sys (sfor entries (stop_body umask ord busy glob storage patterns) t) ::
     so_trace (sfor entries (stop_body umask ord busy glob storage patterns) t)).
Proof.
  intros entries. induction entries as [|x l IH]; intros t Hu Hnd Hp.
  { constructor; [done|constructor]. }
  cbn [sfor]. pose proof (to_stop_nodup glob patterns (x :: l) Hu Hnd) as Hnds.
  apply NoDup_cons in Hnd as [_ Hnd]. rewrite to_stop_cons in Hp, Hnds.
  specialize (IH) as IH'. clear IH.
  assert (∀ u, progress W storage (to_stop glob patterns l) s u →
    Forall (progress W storage [] s)
      (so_sys (sfor l (stop_body umask ord busy glob storage patterns) u) ::
       so_trace (sfor l (stop_body umask ord busy glob storage patterns) u))) as IH.
  { intros u Hpu. apply IH'; [|done|done]. intros y Hy. apply Hu. by right. }
  clear IH'. revert IH. generalize (sfor l (stop_body umask ord busy glob storage patterns)) as k. intros k IH.
  assert (∀ u, progress W storage (to_stop glob patterns l) s u → progress W storage [] s u) as Hless.
  { intros u. apply progress_less, list_subseteq_nil. }
  destruct (stop_body_cases umask ord busy glob storage patterns x t (Hu x ltac:(left)))
    as [[E1 E2]|(name & _ & E1 & [[_ E2]|[_ E2]])]; rewrite E1 in Hp, Hnds; rewrite (sbind_ok _ _ _ _ _ _ E2);
    cbn [so_sys so_trace app].
  - by apply IH.
  - apply IH. eapply progress_less; [|exact Hp]. cbn [app]. intros y Hy. by right.
  - cbn [app] in Hp, Hnds. apply NoDup_cons in Hnds as [Hn _].
    destruct (pg_tidy _ _ _ _ _ Hp name (elem_of_list_here _ _)) as [Ht _].
    pose proof (progress_all W storage name _ s t _ Hn Hp (stop_action_step umask ord busy storage name t Ht)) as Hall.
    revert Hall. generalize (stop_action umask ord busy storage name t) as o. intros o Hall.
    apply Forall_cons in Hall as [Hd Htr]. specialize (IH _ Hd). apply Forall_cons in IH as [I1 I2].
    constructor; [exact I1|]. apply Forall_app. split; [|exact I2].
    eapply Forall_impl; [exact Htr|]. exact Hless.
Qed.

(** `sandbox stop PATTERN...` and `sandbox stop --all`: at every moment only matching sandboxes are affected. *)
Theorem C61_stop_only_matching_partial (umask : N) (ord : list N → list N) (busy : path → bool)
    (glob : string → string → bool) (storage : path) (patterns : list string) (s : sys) :
  tidy_storage (stop_listed glob patterns (s_fs s) storage) storage s →
  ∀ t, t ∈ so_sys (stop_all umask ord busy glob storage patterns s) ::
      so_trace (stop_all umask ord busy glob storage patterns s) →
    only_of (stop_listed glob patterns (s_fs s) storage) storage s t.
Proof.
  intros Hs. destruct (readdir_dir (s_fs s) storage (ts_wf _ _ _ Hs) (ts_dir _ _ _ Hs)) as (entries & E & Hnd & Hin).
  rewrite (stop_all_eq _ _ _ _ _ _ _ entries E).
  assert (∀ x, x ∈ entries → utf8_valid x = true) as Hu.
  { intros x Hx. apply (ts_utf8 _ _ _ Hs). by apply Hin. }
  assert (∀ name, name ∈ to_stop glob patterns entries → stop_listed glob patterns (s_fs s) storage name) as Hw.
  { intros name Hn. apply to_stop_elem in Hn as [H1 H2]; [|done]. split; [|done]. by apply Hin in H1. }
  revert Hs Hw. generalize (stop_listed glob patterns (s_fs s) storage) as W. intros W Hs Hw.
  pose proof (stop_loop_progress W umask ord busy glob storage patterns s entries s Hu Hnd
    (progress_start W storage _ s Hs Hw)) as Hall.
  intros t Ht. rewrite Forall_forall in Hall. apply (Hall t Ht).
Qed.
Print Assumptions C61_stop_only_matching_partial.

(** Every selected sandbox whose directory is there is in fact stopped: its pid file is gone at the end. *)
Record stops (storage : path) (name : string) (s : sys) : Prop := {
  sp_base : is_dir_at (s_fs s) (base_of storage name);
  sp_lock : ∃ n, s_fs s !! lock_of storage name = Some n ∧ n_kind n ≠ KDir;
  sp_stop : stoppable s storage name;
}.
Lemma stop_action_pid (umask : N) (ord : list N → list N) (busy : path → bool) (storage : path) (name : string) (s : sys) :
  tidy storage name s → stops storage name s →
  s_fs (so_sys (stop_action umask ord busy storage name s)) !! pid_of storage name = None.
Proof.
  intros Hs [_ (ln & Hl & Hlk) [Hd Hal]]. pose proof (tidy_inv _ _ _ Hs) as HI.
  pose proof (td_storage _ _ _ Hs) as Hst. pose proof (td_name _ _ _ Hs) as Hnm.
  destruct (get_cases storage name (s_fs s) Hst Hnm umask s HI)
    as [(e & E & n' & Hn' & Hk')|(tr & s1 & E & HI1 & Ep & Htrace & Hpid & _)].
  { rewrite Hl in Hn'. injection Hn' as <-. done. }
  unfold stop_action. rewrite (sbind_ok _ _ _ _ _ _ E). cbn [so_trace so_sys so_res].
  assert (so_res (sandbox_stop ord (the_sandbox storage name s) s1) = Ok tt) as A1.
  { apply (stop_ok storage name (s_fs s) ord (the_sandbox storage name s) s1); [done|done|done|done|done|..].
    - intros z r Ez Er k p Hk Hns. rewrite Ep in Hk.
      assert (proc_of s z = Some r) as Er' by (unfold proc_of in Er |- *; rewrite Ep in Er; exact Er).
      exact (Hal r (the_sandbox_pid storage name (s_fs s) s z r Hst Hnm HI Ez Er') k p Hk Hns).
    - intros n Hn. apply Hd. destruct Hpid as [Hpid|Hpid]; congruence. }
  destruct (op_stop storage name (s_fs s) Hst Hnm ord (the_sandbox storage name s) eq_refl eq_refl s1 HI1) as (_ & _ & Q).
  destruct (Q tt A1) as [Q1 Q2]. clear Q. rewrite (sbind_ok_sys _ _ _ _ A1).
  revert Q1 Q2. generalize (so_sys (sandbox_stop ord (the_sandbox storage name s) s1)) as u. intros u Q1 Q2.
  destruct (unmount_procs busy (base_of storage name) u) as (_ & _ & U).
  destruct (op_unmount storage name (s_fs s) Hst busy None u (conj Q1 Q2)) as (_ & _ & V).
  by destruct (V tt U).
Qed.
Lemma stops_step (W : string → Prop) (storage : path) (a b : string) (t u : sys) :
  apart W → W a → W b → a ≠ b → step_of storage a t u → stops storage b t → stops storage b u.
Proof.
  intros Hap Ha Hb Hne (F & [P1 P2] & [M1 M2]) [H1 H2 [H3 H3']].
  assert (∀ q, of_sandbox storage b q → s_fs u !! q = s_fs t !! q) as Hk.
  { intros q Hq. apply (fr_only _ _ _ _ F). intros Hq'. by apply (apart_disjoint W storage a b q). }
  split.
  - destruct H1 as (n & A & B). exists n. split; [|done]. rewrite Hk; [done|]. left. apply under_refl.
  - destruct H2 as (n & A & B). exists n. split; [|done]. rewrite Hk; [done|]. right. by left.
  - split.
    + intros n Hn. apply H3. rewrite <-Hk; [done|]. right. by right.
    + intros r (n & c & z & E1 & E2 & E3 & E4 & E5) k p Hkp Hns.
      refine (H3' r _ k p (P1 _ _ Hkp) Hns). exists n, c, z.
      rewrite <-Hk by (right; by right). split; [done|]. split; [done|]. split; [done|]. split; [done|].
      by apply P1.
Qed.
Lemma exists_tidy (f : fs) (storage : path) (x : string) : wf_tree f → is_dir_at f storage → comp_ok x →
  not_link f (storage ++ [x]) → exists_ f (storage ++ [x]) = bool_decide (is_Some (f !! (storage ++ [x]))).
Proof.
  intros Hwf Hd Hx Hl. unfold exists_. rewrite stat_dirpath; [by destruct (f !! (storage ++ [x]))| |exact Hl].
  by apply dirpath_snoc.
Qed.
Lemma wanted_stops (glob : string → string → bool) (patterns : list string) (storage : path) (name : string) (t : sys) :
  tidy storage name t → stops storage name t →
  (patterns = [] ∨ ∃ p, p ∈ patterns ∧ glob ("*" +:+ p +:+ "*") name = true) →
  stop_all_wanted glob patterns (s_fs t) storage name = false → s_fs t !! pid_of storage name = None.
Proof.
  intros [T1 T2 T3 T4 T5 T6 _] [(n & Hb & _) (l & Hl & _) _] Hp.
  assert (contains "/" name = false) as Hs by apply T3.
  unfold stop_all_wanted.
  assert (exists_ (s_fs t) (lock_of storage name) = true) as ->.
  { unfold lock_of. rewrite exists_tidy; [|done|done|by apply lock_comp_ok|exact T5].
    apply bool_decide_eq_true. unfold lock_of in Hl. rewrite Hl. done. }
  assert (exists_ (s_fs t) (base_of storage name) = true) as ->.
  { unfold base_of. rewrite exists_tidy; [|done|done|done|exact T4].
    apply bool_decide_eq_true. unfold base_of in Hb. rewrite Hb. done. }
  pose proof (patterns_spec (λ p, glob ("*" +:+ p +:+ "*")) patterns name) as Hps. cbn beta in Hps.
  rewrite (proj2 Hps Hp). cbn [andb]. rewrite !andb_true_r.
  unfold pid_of. rewrite exists_tidy; [|done|done|by apply pid_comp_ok|exact T6].
  intros H. apply bool_decide_eq_false in H. by apply eq_None_not_Some.
Qed.

Lemma stop_loop_pids (W : string → Prop) (umask : N) (ord : list N → list N) (busy : path → bool)
    (glob : string → string → bool) (storage : path) (patterns : list string) (s : sys) : apart W →
  ∀ entries t name, (∀ x, x ∈ entries → utf8_valid x = true) → NoDup entries →
  progress W storage (to_stop glob patterns entries) s t → W name →
  (name ∈ to_stop glob patterns entries ∧ stops storage name t) ∨
  (name ∉ to_stop glob patterns entries ∧ s_fs t !! pid_of storage name = None) →
  s_fs (so_sys (sfor entries (stop_body umask ord busy glob storage patterns) t)) !! pid_of storage name = None.
Proof.
  intros Hap entries. induction entries as [|x l IH]; intros t name Hu Hnd Hp Hw Hc.
  { destruct Hc as [[Hc _]|[_ Hc]]; [by apply elem_of_nil in Hc|]. exact Hc. }
  cbn [sfor]. pose proof (to_stop_nodup glob patterns (x :: l) Hu Hnd) as Hnds.
  pose proof (to_stop_elem glob patterns (x :: l) name Hu) as Hel.
  apply NoDup_cons in Hnd as [_ Hnd]. rewrite to_stop_cons in Hp, Hnds, Hc, Hel.
  assert (∀ y, y ∈ l → utf8_valid y = true) as Hul by (intros y Hy; apply Hu; by right).
  assert (∀ u, progress W storage (to_stop glob patterns l) s u →
    (name ∈ to_stop glob patterns l ∧ stops storage name u) ∨
    (name ∉ to_stop glob patterns l ∧ s_fs u !! pid_of storage name = None) →
    s_fs (so_sys (sfor l (stop_body umask ord busy glob storage patterns) u)) !! pid_of storage name = None) as IH'.
  { intros u H1 H2. by apply IH. }
  clear IH. revert IH'. generalize (sfor l (stop_body umask ord busy glob storage patterns)) as k. intros k IH.
  destruct (stop_body_cases umask ord busy glob storage patterns x t (Hu x ltac:(left)))
    as [[E1 E2]|(n & _ & E1 & [[Ew E2]|[_ E2]])]; rewrite E1 in Hp, Hnds, Hc, Hel; rewrite (sbind_ok _ _ _ _ _ _ E2);
    cbn [so_sys so_trace app]; cbn [app] in Hp, Hnds, Hc, Hel.
  - by apply IH.
  - apply NoDup_cons in Hnds as [Hn Hnds]. apply IH; [eapply progress_less; [|exact Hp]; intros y Hy; by right|].
    destruct Hc as [[Hc1 Hc2]|[Hc1 Hc2]].
    + pose proof (proj1 Hel Hc1) as [_ Hpat].
      apply elem_of_cons in Hc1 as [-> |Hc1]; [|by left]. right. split; [done|].
      eapply wanted_stops; [|done|exact Hpat|exact Ew].
      by destruct (pg_tidy _ _ _ _ _ Hp n (elem_of_list_here _ _)).
    + right. split; [|done]. intros H. apply Hc1. by right.
  - apply NoDup_cons in Hnds as [Hn Hnds].
    destruct (pg_tidy _ _ _ _ _ Hp n (elem_of_list_here _ _)) as [Ht Hwn].
    pose proof (stop_action_step umask ord busy storage n t Ht) as Hst.
    pose proof (stop_action_pid umask ord busy storage n t Ht) as Hpid.
    revert Hst Hpid. generalize (stop_action umask ord busy storage n t) as o. intros o Hst Hpid.
    pose proof (progress_all W storage n _ s t _ Hn Hp Hst) as Hall.
    apply Forall_cons in Hall as [Hd _]. apply Forall_cons in Hst as [Hst _].
    assert (n ≠ name → s_fs (so_sys o) !! pid_of storage name = s_fs t !! pid_of storage name) as Hkeep.
    { intros Hne. destruct Hst as (F & _). apply (fr_only _ _ _ _ F).
      apply (apart_disjoint W storage name n); [done..|congruence|]. right. by right. }
    apply IH; [exact Hd|]. destruct Hc as [[Hc1 Hc2]|[Hc1 Hc2]].
    + apply elem_of_cons in Hc1 as [-> |Hc1].
      * right. split; [done|]. by apply Hpid.
      * left. split; [done|]. apply (stops_step W storage n name t); [done..| |done|done]. intros ->. done.
    + right. apply not_elem_of_cons in Hc1 as [Hc0 Hc1]. split; [done|]. rewrite Hkeep; [done|congruence].
Qed.
Theorem C61_stop_all_matching (umask : N) (ord : list N → list N) (busy : path → bool)
    (glob : string → string → bool) (storage : path) (patterns : list string) (s : sys) :
  tidy_storage (stop_listed glob patterns (s_fs s) storage) storage s →
  apart (stop_listed glob patterns (s_fs s) storage) →
  ∀ name, stop_listed glob patterns (s_fs s) storage name → stops storage name s →
    s_fs (so_sys (stop_all umask ord busy glob storage patterns s)) !! pid_of storage name = None.
Proof.
  intros Hs Hap name Hl Hst.
  destruct (readdir_dir (s_fs s) storage (ts_wf _ _ _ Hs) (ts_dir _ _ _ Hs)) as (entries & E & Hnd & Hin).
  rewrite (stop_all_eq _ _ _ _ _ _ _ entries E).
  assert (∀ x, x ∈ entries → utf8_valid x = true) as Hu.
  { intros x Hx. apply (ts_utf8 _ _ _ Hs). by apply Hin. }
  assert (∀ name, name ∈ to_stop glob patterns entries ↔ stop_listed glob patterns (s_fs s) storage name) as Hw.
  { intros n. rewrite to_stop_elem by done. unfold stop_listed. rewrite Hin. done. }
  pose proof (proj2 (Hw name) Hl) as Hm.
  apply (stop_loop_pids (stop_listed glob patterns (s_fs s) storage) umask ord busy glob storage patterns s Hap);
    [done|done| |done|by left].
  apply progress_start; [done|]. intros n Hn. by apply Hw.
Qed.
Print Assumptions C61_stop_all_matching.

(** In full: no condition on the names found in the storage directory. *)
Definition C61_full : Prop := ∀ umask ord busy dord glob storage cfg_name patterns s t,
  (∀ l, dord l ≡ₚ l) → patterns ≠ [] → wf_tree (s_fs s) → is_dir_at (s_fs s) storage → pid_files_ok s storage →
  (∀ x, is_Some (s_fs s !! (storage ++ [x])) → utf8_valid x = true) → s_mounts s = [] →
  t ∈ so_sys (delete_action umask ord busy dord glob storage cfg_name patterns true s) ::
      so_trace (delete_action umask ord busy dord glob storage cfg_name patterns true s) →
  only_of (listed glob patterns (s_fs s) storage) storage s t.
(** A file "...lock" in the storage directory is taken for the lock of a sandbox "..": `sandbox delete '*'`
    removes the directory above the storage directory. *)
Definition dots_sys : sys :=
  Sys (<[home_storage ++ ["...lock"] := Node (KFile "") 420 0 0 1 ∅]> home_fs) ∅ [].
Lemma locks_only (f : fs) (storage : path) (l : list string) :
  forallb (λ k, match path_strip storage k with
                | Some [x] => (negb (ends_with ".lock" x) || existsb (λ n, String.eqb x (n +:+ ".lock")) l)%bool
                | _ => true end) (keys f) = true →
  ∀ name, is_Some (f !! lock_of storage name) → name ∈ l.
Proof.
  rewrite forallb_forall. intros H name Hx.
  assert (In (lock_of storage name) (keys f)) as Hi by (apply elem_of_list_In, elem_of_keys; done).
  specialize (H _ Hi). cbn beta in H. unfold lock_of in H. rewrite path_strip_app in H.
  assert (ends_with ".lock" (name +:+ ".lock") = true) as E by (apply ends_with_spec; by exists name).
  rewrite E in H. cbn [negb orb] in H. apply existsb_exists in H as (n & Hn & En).
  apply String.eqb_eq in En. apply str_app_eq_r in En as ->. by apply elem_of_list_In.
Qed.
Theorem C61_refuted : ¬ C61_full.
Proof.
  intros H.
  set (o := delete_action 18 same_order (λ _, false) (λ l, l) (λ _ _, true) home_storage "" ["*"] true dots_sys).
  pose proof (H 18%N same_order (λ _, false) (λ l, l) (λ _ _, true) home_storage "" ["*"] dots_sys (so_sys o)
    ltac:(done) ltac:(done) ltac:(apply wf_treeb_spec; vm_compute; reflexivity)
    ltac:(apply dirb_spec; vm_compute; reflexivity)
    ltac:(apply pid_files_okb_spec; vm_compute; reflexivity)
    ltac:(apply names_okb_spec; vm_compute; reflexivity) eq_refl (elem_of_list_here _ _)) as [K _].
  specialize (K ["home"; "letter"]).
  assert (s_fs (so_sys o) !! ["home"; "letter"] = None) as E by (vm_compute; reflexivity).
  rewrite E in K. clear E H. clearbody o.
  assert (s_fs dots_sys !! ["home"; "letter"] ≠ None) as E by (vm_compute; discriminate).
  apply E. symmetry. apply K. intros name _ [Hu|[Hu|Hu]].
  - discriminate Hu.
  - discriminate Hu.
  - discriminate Hu.
Qed.
Print Assumptions C61_refuted.

(** Two sandboxes, one running with its overlay mounted; a pattern that matches that one. *)
Definition two_mounted : sys :=
  Sys (<[["home"; ".sandboxes"; "b"] := Node KDir 493 1000 1000 1 ∅]>
       (<[["home"; ".sandboxes"; "b.lock"] := Node (KFile "") 420 0 0 1 ∅]> (s_fs mounted_sys)))
    (s_procs mounted_sys) (s_mounts mounted_sys).
Definition starts_a (p n : string) : bool := starts_with "a" n.
Lemma two_listed (name : string) :
  is_Some (s_fs two_mounted !! lock_of home_storage name) → starts_with "a" name = true → name = "a".
Proof.
  intros H E. assert (name ∈ ["a"; "b"]) as Hi.
  { apply (locks_only (s_fs two_mounted) home_storage); [vm_compute; reflexivity|exact H]. }
  apply elem_of_cons in Hi as [Hi|Hi]; [exact Hi|]. apply elem_of_list_singleton in Hi. rewrite Hi in E. discriminate E.
Qed.
Lemma two_tidy (W : string → Prop) : (∀ name, W name → name = "a") → tidy_storage W home_storage two_mounted.
Proof.
  intros HW. split.
  - apply wf_treeb_spec. vm_compute. reflexivity.
  - apply dirb_spec. vm_compute. reflexivity.
  - apply pid_files_okb_spec. vm_compute. reflexivity.
  - apply names_okb_spec. vm_compute. reflexivity.
  - intros name H. rewrite (HW name H). apply tidyb_spec. vm_compute. reflexivity.
  - intros m Hm _. apply elem_of_list_singleton in Hm as ->. exists "a", "overlay", ["etc"]. reflexivity.
Qed.
Example C61_nonvacuous :
  let W := listed starts_a ["a*"] (s_fs two_mounted) home_storage in
  let o := delete_action 18 same_order (λ _, false) (λ l, l) starts_a home_storage "" ["a*"] true two_mounted in
  tidy_storage W home_storage two_mounted ∧ apart W ∧ W "a" ∧
  so_res o = Ok (["a"], 0) ∧ deleted home_storage "a" (s_fs (so_sys o)) ∧
  is_dir_at (s_fs (so_sys o)) (base_of home_storage "b").
Proof.
  cbv zeta.
  assert (∀ name, listed starts_a ["a*"] (s_fs two_mounted) home_storage name → name = "a") as HW.
  { intros name [H1 [H2|(p & _ & H2)]]; [discriminate H2|]. by apply two_listed. }
  assert (listed starts_a ["a*"] (s_fs two_mounted) home_storage "a") as Ha.
  { split; [vm_compute; eexists; reflexivity|]. right. exists "a*". split; [apply elem_of_list_here|reflexivity]. }
  assert (apart (listed starts_a ["a*"] (s_fs two_mounted) home_storage)) as Hap.
  { intros a b H1 H2. rewrite (HW a H1), (HW b H2). split; discriminate. }
  assert (so_res (delete_action 18 same_order (λ _, false) (λ l, l) starts_a home_storage "" ["a*"] true two_mounted)
    = Ok (["a"], 0)) as Er by (vm_compute; reflexivity).
  pose proof (two_tidy _ HW) as Ht.
  split; [exact Ht|]. split; [exact Hap|]. split; [exact Ha|]. split; [exact Er|]. split.
  - destruct (C61_delete_report_partial 18 same_order (λ _, false) (λ l, l) starts_a home_storage "" ["a*"] two_mounted
      ["a"] 0 ltac:(done) ltac:(discriminate) Ht Hap Er) as [H _].
    apply (H "a"). apply elem_of_list_here.
  - apply dirb_spec. vm_compute. reflexivity.
Qed.
Example C61_stop_nonvacuous :
  let W := stop_listed starts_a ["a"] (s_fs two_mounted) home_storage in
  tidy_storage W home_storage two_mounted ∧ apart W ∧ W "a" ∧ stops home_storage "a" two_mounted ∧
  s_fs two_mounted !! pid_of home_storage "a" ≠ None.
Proof.
  cbv zeta.
  assert (∀ name, stop_listed starts_a ["a"] (s_fs two_mounted) home_storage name → name = "a") as HW.
  { intros name [H1 [H2|(p & _ & H2)]]; [discriminate H2|]. by apply two_listed. }
  split; [by apply two_tidy|].
  split; [intros a b H1 H2; rewrite (HW a H1), (HW b H2); split; discriminate|].
  split; [split; [vm_compute; eexists; reflexivity|right; exists "a"; split; [apply elem_of_list_here|reflexivity]]|].
  split; [|vm_compute; discriminate].
  split.
  - apply dirb_spec. vm_compute. reflexivity.
  - eexists. split; [vm_compute; reflexivity|discriminate].
  - split.
    + intros n Hn. vm_compute in Hn. injection Hn as <-. discriminate.
    + intros r _ k p Hk _. cbn [two_mounted mounted_sys s_procs] in Hk. apply elem_of_list_to_map_2 in Hk.
      repeat (apply elem_of_cons in Hk as [Hk|Hk]; [injection Hk as _ ->; reflexivity|]).
      by apply elem_of_nil in Hk.
Qed.
