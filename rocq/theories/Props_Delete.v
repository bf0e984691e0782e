(** * C71, C72: what `sandbox delete` asks and reports.
    Model: Output.v ([delete_cmd], [main_run]). *)
From Verif Require Export Output Props_List.

(** ** C72 *)
(** Specification. What the question is about: the sandboxes matching the patterns, or the configured one. *)
Definition wanted (o : opts) (patterns : list string) (s : sys) (name : string) : Prop :=
  match patterns with
  | [] => name = o_name o
  | _ => listed (e_glob (o_env o)) patterns (s_fs s) (o_storage o) name
  end.
(** An answer that means yes: the letter y, small or capital, with white space around it. *)
Definition blank (s : string) : Prop := forallb Ignore.is_space (to_bytes s) = true.
Definition says_yes (answer : string) : Prop :=
  ∃ l r, blank l ∧ blank r ∧ (answer = l +:+ "y" +:+ r ∨ answer = l +:+ "Y" +:+ r).
(** No process that could be doing something is recorded for the sandbox: the pid file does not hold the
    number of a process, or that process is a zombie or is stopped (states Z and T of proc(5); said of
    processes whose name has no blank in it). *)
Definition idle (s : sys) (storage : path) (name : string) : Prop :=
  ∀ r, recorded_process s storage name r → no_ws (p_comm r) = true → no_ws (p_state r) = true →
    p_state r = "" ∨ p_state r = "Z" ∨ p_state r = "T".
(** Nothing has happened, up to a new empty lock file and the removed pid file of an idle sandbox. *)
Definition calm (W : string → Prop) (storage : path) (s t : sys) : Prop :=
  s_procs t = s_procs s ∧ s_mounts t = s_mounts s ∧
  ∀ q, s_fs t !! q = s_fs s !! q ∨
       (∃ name n, W name ∧ q = lock_of storage name ∧ s_fs s !! q = None ∧
          s_fs t !! q = Some n ∧ n_kind n = KFile "") ∨
       (∃ name, W name ∧ q = pid_of storage name ∧ s_fs t !! q = None ∧ idle s storage name).
(** The name stood on the screen when the question was asked, with the numbers of entries counted when nothing
    had happened yet (Props_Counts.v says what these numbers mean). *)
Definition counted (W : string → Prop) (o : opts) (s : sys) (name : string) (n i : nat) : Prop :=
  ∃ t, calm W (o_storage o) s t ∧
    count_upper_entries (o_env o) (s_fs t) (upper_of (o_storage o) name) (o_ignored o) = Ok (n, i).
Definition shown_before_asking (W : string → Prop) (o : opts) (s : sys) (screen : list seen) (name : string) : Prop :=
  ∃ pre post stopped n i, screen = pre ++ Asked :: post ∧ Printed (entry_line name stopped n i) ∈ pre ∧
    counted W o s name n i.

(** *** What looking at a sandbox does *)
Definition quiet (storage : path) (name : string) (t u : sys) : Prop :=
  s_procs u = s_procs t ∧ s_mounts u = s_mounts t ∧
  ∀ q, s_fs u !! q = s_fs t !! q ∨
       (q = lock_of storage name ∧ s_fs t !! q = None ∧ ∃ n, s_fs u !! q = Some n ∧ n_kind n = KFile "") ∨
       (q = pid_of storage name ∧ s_fs u !! q = None ∧ recorded_pid t storage name = None).
Lemma quiet_refl (storage : path) (name : string) (t : sys) : quiet storage name t t.
Proof. split; [done|]. split; [done|]. intros q. by left. Qed.

Section Quiet.
Context (storage : path) (name : string) (t : sys).
Context (Ht : tidy storage name t).
#[local] Notation P := (Inv storage name (s_fs t)).
#[local] Notation K := (λ u, Inv storage name (s_fs t) u ∧ quiet storage name t u).
#[local] Notation lockp := (lock_of storage name).
#[local] Notation pidp := (pid_of storage name).

Lemma quiet_pid u : quiet storage name t u → s_fs u !! pidp = s_fs t !! pidp ∨
  s_fs u !! pidp = None ∧ recorded_pid t storage name = None.
Proof.
  intros (_ & _ & H). destruct (H pidp) as [E|[[E _]|(_ & E1 & E2)]]; [by left| |by right].
  symmetry in E. by apply lock_ne_pid in E.
Qed.
Lemma quiet_recorded u : K u → recorded_pid u storage name = None → recorded_pid t storage name = None.
Proof.
  intros [Hi Hq] E. destruct (quiet_pid u Hq) as [E2|[_ E2]]; [|done].
  destruct Hq as (Ep & _). rewrite <-E. symmetry.
  apply (recorded_same storage name (s_fs t)); [apply Ht|apply Ht|by apply tidy_inv|done|done|done].
Qed.
Lemma k_open umask : striple K K (lift_fs (sys_open_create umask lockp)) (λ _, K).
Proof.
  intros u [Hu Hq]. pose proof (td_storage _ _ _ Ht) as Hd. pose proof (td_name _ _ _ Ht) as Hn.
  destruct (op_open storage name (s_fs t) Hd Hn umask u Hu) as (_ & _ & Hok).
  revert Hok. unfold lift_fs, sys_open_create.
  rewrite lookup_f_dirpath; [|apply (frame_lock storage name (s_fs t) Hd Hn), Hu|by apply Hu].
  destruct (s_fs u !! lockp) as [n|] eqn:E.
  - destruct (is_kdir (n_kind n)); cbn [o_trace o_fs o_res fail_ fmap list_fmap so_res so_sys so_trace];
      rewrite set_fs_id; intros _; (split; [constructor|]); (split; [done|]); done.
  - cbn [o_trace o_fs o_res emit fmap list_fmap so_res so_sys so_trace]. intros Hok.
    destruct (Hok tt eq_refl) as [Hi _].
    set (u' := set_fs u (<[lockp := Node (KFile "") (and_not 438 umask) 0 0 (parent_dev (s_fs u) lockp) ∅]> (s_fs u))) in *.
    assert (quiet storage name t u') as Hq'.
    { destruct Hq as (Q1 & Q2 & Q3). split; [done|]. split; [done|]. intros q.
      destruct (decide (q = lockp)) as [-> |Hne].
      - right. left. split; [done|]. split.
        + destruct (Q3 lockp) as [Q|[(_ & Q & _)|(Q & _)]]; [congruence|done|by apply lock_ne_pid in Q].
        + eexists. split; [apply lookup_insert|done].
      - unfold u'. cbn [set_fs s_fs]. rewrite lookup_insert_ne by done. apply Q3. }
    split; [by constructor|]. split; [done|]. done.
Qed.
Lemma k_running : striple K K (get_running_sandbox_pid storage name) (λ _, K).
Proof.
  intros u HK. pose proof (quiet_recorded u HK) as Hrec. destruct HK as [Hu Hq].
  pose proof (td_storage _ _ _ Ht) as Hd. pose proof (td_name _ _ _ Ht) as Hn.
  assert (∀ x : option Z, Forall K (so_trace (sret x u)) ∧ K (so_sys (sret x u)) ∧
    ∀ a, so_res (sret x u) = Ok a → K (so_sys (sret x u))) as Hret.
  { intros x. split; [constructor|]. done. }
  unfold get_running_sandbox_pid. destruct (exists_ (s_fs u) pidp); [|apply Hret].
  destruct (recorded_pid u storage name) as [z|]; [apply Hret|]. specialize (Hrec eq_refl).
  assert (K (so_sys (lift_fs (sys_unlink pidp) u)) ∧ Forall K (so_trace (lift_fs (sys_unlink pidp) u))) as [A B].
  { pose proof (op_unlink storage name (s_fs t) Hd Hn pidp ltac:(by right) u Hu) as (_ & _ & Hok).
    revert Hok. unfold lift_fs.
    destruct (unlink_cases (s_fs u) pidp) as [[e ->]|(n & _ & _ & _ & _ & -> & _)];
      [apply Hu|by apply dirpath_nolink, (frame_pid storage name (s_fs t) Hd Hn), Hu|..];
      cbn [o_trace o_fs o_res emit fail_ fmap list_fmap so_res so_sys so_trace].
    - rewrite set_fs_id. intros _. split; [done|constructor].
    - intros Hok. destruct (Hok tt eq_refl) as [Hi _].
      assert (quiet storage name t (set_fs u (delete pidp (s_fs u)))) as Hq'; [|by split; [|constructor]].
      destruct Hq as (Q1 & Q2 & Q3). split; [done|]. split; [done|]. intros q. cbn [set_fs s_fs].
      destruct (decide (q = pidp)) as [-> |Hne].
      + right. right. split; [done|]. split; [apply lookup_delete|done].
      + rewrite lookup_delete_ne by done. apply Q3. }
  unfold sbind, ignore_err. cbn [so_trace so_sys so_res sret]. rewrite app_nil_r. done.
Qed.
Lemma k_get umask : striple K K (sandbox_get umask storage name) (λ _, K).
Proof.
  unfold sandbox_get. eapply st_bind; [apply k_open|]. intros [].
  eapply st_bind; [apply (st_get _ _ _ (λ _, K)); done|]. intros there. destruct there; cbn [negb].
  - eapply st_bind; [apply k_running|]. intros [z|]; by apply st_ret.
  - by apply st_ret.
Qed.
Lemma k_get_or_stopped umask : striple K K (sandbox_get_or_stopped umask storage name) (λ _, K).
Proof. unfold sandbox_get_or_stopped. eapply st_bind; [apply k_get|]. intros x. by apply st_ret. Qed.
Lemma k_start : K t.
Proof. split; [by apply tidy_inv|apply quiet_refl]. Qed.
End Quiet.

(** *** Several sandboxes *)
Lemma inv_tidy (storage : path) (name : string) (t u : sys) :
  tidy storage name t → Inv storage name (s_fs t) u → tidy storage name u.
Proof.
  intros Ht [H1 H2 H3 H4 H5]. split; [apply H1| |apply Ht|done..].
  eapply only_storage; [apply H1|apply Ht].
Qed.
Lemma quiet_step (storage : path) (name : string) (t u : sys) :
  Inv storage name (s_fs t) u → quiet storage name t u → step_of storage name t u.
Proof.
  intros H (Q1 & Q2 & _). split; [apply H|]. split.
  - unfold attributed. rewrite Q1. split; [done|]. intros k p A B. congruence.
  - rewrite Q2. apply fewer_refl.
Qed.

Lemma recorded_idle (storage : path) (name : string) (s : sys) : tidy storage name s → pid_files_ok s storage →
  recorded_pid s storage name = None → idle s storage name.
Proof.
  intros Hs Hpf E r (n & c & z & E1 & E2 & E3 & E4 & E5) Hc Hst. revert E. unfold recorded_pid.
  rewrite (read_pid storage name (s_fs s)); [|apply Hs|apply Hs|by apply tidy_inv]. rewrite E1, E2.
  destruct (Hpf name n E1) as (c' & Ec & Hu & _). assert (c' = c) as -> by congruence. rewrite Hu, E3.
  cbn [mbind option_bind].
  assert (proc_of s z = Some r) as Ep.
  { unfold proc_of. destruct (Z.leb z 0) eqn:El; [apply Z.leb_le in El; lia|done]. }
  rewrite Ep. cbn [mbind option_bind].
  destruct (decide (p_state r = "")) as [Hem|Hne]; [by left|].
  pose proof (stat_state (Z.to_N z) r Hc Hst Hne) as Hw. rewrite Z2N.id in Hw by lia. rewrite Hw.
  cbn [mbind option_bind]. intros H. right.
  destruct (String.eqb (p_state r) "Z") eqn:EZ; [left; by apply String.eqb_eq|].
  destruct (String.eqb (p_state r) "T") eqn:ET; [right; by apply String.eqb_eq|]. discriminate H.
Qed.

Lemma recorded_tidy (storage : path) (name : string) (s t : sys) : tidy storage name s → tidy storage name t →
  s_procs t = s_procs s → s_fs t !! pid_of storage name = s_fs s !! pid_of storage name →
  recorded_pid t storage name = recorded_pid s storage name.
Proof.
  intros Hs Ht Ep Ef. unfold recorded_pid.
  rewrite (read_pid storage name (s_fs s) (td_storage _ _ _ Hs) (td_name _ _ _ Hs) s (tidy_inv _ _ _ Hs)).
  rewrite (read_pid storage name (s_fs t) (td_storage _ _ _ Ht) (td_name _ _ _ Ht) t (tidy_inv _ _ _ Ht)).
  rewrite Ef. unfold proc_of. by rewrite Ep.
Qed.

Record still (W : string → Prop) (storage : path) (names : list string) (s t : sys) : Prop := {
  sl_progress : progress W storage names s t;
  sl_calm : calm W storage s t;
}.
Lemma still_start (W : string → Prop) (storage : path) (names : list string) (s : sys) :
  tidy_storage W storage s → (∀ name, name ∈ names → W name) → still W storage names s s.
Proof.
  intros Hs Hn. split; [by apply progress_start|]. split; [done|]. split; [done|]. intros q. by left.
Qed.
Lemma still_step (W : string → Prop) (storage : path) (names : list string) (name : string) (s t u : sys) :
  tidy_storage W storage s → name ∈ names → still W storage names s t →
  Inv storage name (s_fs t) u → quiet storage name t u → still W storage names s u.
Proof.
  intros Hs Hn [Hp Hc] Hi Hq. destruct (pg_tidy _ _ _ _ _ Hp name Hn) as [Ht Hw].
  pose proof (quiet_step storage name t u Hi Hq) as Hst.
  assert (∀ n2, n2 ∈ names → n2 ≠ name → progress W storage [n2] s u) as Hother.
  { intros n2 H2 Hne. apply (progress_step W storage name [n2] s t u); [|eapply progress_less; [|exact Hp]|done].
    - intros H. apply elem_of_list_singleton in H. by subst.
    - intros x Hx. apply elem_of_cons in Hx as [-> |Hx]; [done|]. by apply elem_of_list_singleton in Hx as ->. }
  assert (progress W storage [] s u) as H0.
  { apply (progress_step W storage name [] s t u); [apply not_elem_of_nil|eapply progress_less; [|exact Hp]|done].
    intros x Hx. by apply elem_of_list_singleton in Hx as ->. }
  split.
  - split; [|apply H0..]. intros n2 H2. destruct (decide (n2 = name)) as [-> |Hne].
    + split; [|done]. by apply (inv_tidy storage name t).
    + apply (pg_tidy _ _ _ _ _ (Hother n2 H2 Hne)). left.
  - destruct Hc as (C1 & C2 & C3). destruct Hq as (Q1 & Q2 & Q3).
    split; [congruence|]. split; [congruence|]. intros q.
    destruct (Q3 q) as [E|[(-> & E1 & n & E2 & E3)|(-> & E1 & E2)]].
    + rewrite E. apply C3.
    + destruct (C3 (lock_of storage name)) as [C|[(n2 & m & _ & _ & _ & C & _)|(n2 & _ & C & _)]].
      * right. left. exists name, n. split; [done|]. split; [done|]. split; [congruence|done].
      * congruence.
      * unfold lock_of, pid_of in C. apply app_inj_tail in C as [_ C]. by apply lock_not_pid in C.
    + destruct (C3 (pid_of storage name)) as [C|[(n2 & m & _ & C & _)|(n2 & H2 & C & _ & H3)]].
      * right. right. exists name. split; [done|]. split; [done|]. split; [done|].
        apply recorded_idle; [by apply (ts_names _ _ _ Hs)|apply Hs|].
        rewrite <-E2. symmetry. apply recorded_tidy; [by apply (ts_names _ _ _ Hs)|done..].
      * unfold lock_of, pid_of in C. apply app_inj_tail in C as [_ C]. symmetry in C. by apply lock_not_pid in C.
      * right. right. exists name. split; [done|]. split; [done|]. split; [done|].
        unfold pid_of in C. apply app_inj_tail in C as [_ C]. apply str_app_eq_r in C as <-. done.
Qed.

Lemma still_get (W : string → Prop) (storage : path) (names : list string) (umask : N) (name : string) (s t : sys) :
  tidy_storage W storage s → name ∈ names → still W storage names s t →
  Forall (still W storage names s)
    (so_sys (sandbox_get umask storage name t) :: so_trace (sandbox_get umask storage name t)) ∧
  Forall (still W storage names s)
    (so_sys (sandbox_get_or_stopped umask storage name t) :: so_trace (sandbox_get_or_stopped umask storage name t)).
Proof.
  intros Hs Hn Hst. destruct (pg_tidy _ _ _ _ _ (sl_progress _ _ _ _ _ Hst) name Hn) as [Ht _].
  pose proof (k_start storage name t Ht) as HK.
  split.
  - eapply Forall_impl; [exact (striple_all _ _ _ _ t (k_get storage name t Ht umask) HK)|].
    intros u [H1 H2]. by apply (still_step W storage names name s t u).
  - eapply Forall_impl; [exact (striple_all _ _ _ _ t (k_get_or_stopped storage name t Ht umask) HK)|].
    intros u [H1 H2]. by apply (still_step W storage names name s t u).
Qed.

(** *** Computations with output *)
Definition states {A : Type} (p : pout A) : list sys := po_sys p :: po_trace p.
Lemma pbind_ok {A B : Type} (m : P_ A) (k : A → P_ B) (s : sys) (tr : list sys) (s1 : sys) (ev : list event) (a : A) :
  m s = POut tr s1 ev (Ok a) →
  pbind m k s = POut (tr ++ po_trace (k a s1)) (po_sys (k a s1)) (ev ++ po_ev (k a s1)) (po_res (k a s1)).
Proof. intros E. unfold pbind. by rewrite E. Qed.
Lemma pbind_err {A B : Type} (m : P_ A) (k : A → P_ B) (s : sys) (tr : list sys) (s1 : sys) (ev : list event) (e : err) :
  m s = POut tr s1 ev (Err e) → pbind m k s = POut tr s1 ev (Err e).
Proof. intros E. unfold pbind. by rewrite E. Qed.
(** Only lines for the user. *)
Definition plain (l : list event) : Prop := Forall (λ v, ∃ x, v = Line x) l.
Lemma plain_app (l k : list event) : plain l → plain k → plain (l ++ k).
Proof. intros H1 H2. by apply Forall_app. Qed.
Lemma plain_line (x : string) : plain [Line x].
Proof. apply Forall_singleton. by exists x. Qed.
Lemma plain_nil : plain [].
Proof. constructor. Qed.

Lemma pbind_lift_get_say {A B : Type} (g : S_ A) (c : sys → res B) (w : B → event) (t : sys) :
  pbind (plift g) (λ _, pbind (pget c) (λ n, say (w n))) t =
  match so_res (g t) with
  | Ok _ => match c (so_sys (g t)) with
            | Ok n => POut (so_trace (g t)) (so_sys (g t)) [w n] (Ok tt)
            | Err e => POut (so_trace (g t)) (so_sys (g t)) [] (Err e)
            end
  | Err e => POut (so_trace (g t)) (so_sys (g t)) [] (Err e)
  end.
Proof.
  unfold pbind, pget, plift, sget, say. destruct (g t) as [tr s1 [a|e]]; cbn; [|done].
  destruct (c s1); cbn; by rewrite app_nil_r.
Qed.
Lemma prompt_one_spec (W : string → Prop) (o : opts) (names : list string) (s : sys) (x : string * bool) (t : sys) :
  tidy_storage W (o_storage o) s → x.1 ∈ names → still W (o_storage o) names s t →
  let p := prompt_one o x t in
  Forall (still W (o_storage o) names s) (states p) ∧ plain (po_ev p) ∧
  (∀ a, po_res p = Ok a → ∃ n i, Line (entry_line x.1 x.2 n i) ∈ po_ev p ∧ counted W o s x.1 n i).
Proof.
  intros Hs Hn Ht. cbv zeta.
  destruct (still_get W (o_storage o) names (o_umask o) x.1 s t Hs Hn Ht) as [_ Hall].
  unfold prompt_one. rewrite pbind_lift_get_say.
  revert Hall. generalize (sandbox_get_or_stopped (o_umask o) (o_storage o) x.1 t) as g. intros g Hall.
  destruct (so_res g) as [sb|e]; cbn [states po_res po_trace po_sys po_ev].
  - destruct (count_upper_entries (o_env o) (s_fs (so_sys g)) (upper_of (o_storage o) x.1) (o_ignored o)) as [[n i]|e] eqn:Ec; cbn [states po_res po_trace po_sys po_ev fst snd].
    + split; [exact Hall|]. split; [apply plain_line|]. intros a _. exists n, i.
      split; [apply elem_of_list_here|]. exists (so_sys g). split; [|exact Ec].
      apply Forall_cons in Hall as [Hg _]. apply Hg.
    + split; [exact Hall|]. split; [apply plain_nil|]. intros a E. discriminate E.
  - split; [exact Hall|]. split; [apply plain_nil|]. intros a E. discriminate E.
Qed.
Lemma prompt_all (W : string → Prop) (o : opts) (names : list string) (s : sys) (l : list (string * bool)) :
  tidy_storage W (o_storage o) s → (∀ x, x ∈ l → x.1 ∈ names) → ∀ t, still W (o_storage o) names s t →
  let p := pfor l (prompt_one o) t in
  Forall (still W (o_storage o) names s) (states p) ∧ plain (po_ev p) ∧
  (∀ a, po_res p = Ok a → ∀ x, x ∈ l → ∃ n i, Line (entry_line x.1 x.2 n i) ∈ po_ev p ∧ counted W o s x.1 n i).
Proof.
  intros Hs. induction l as [|x l IH]; intros Hl t Ht; cbv zeta.
  { cbn [pfor]. unfold pret, plift, sret. cbn [states po_res po_trace po_sys po_ev so_res so_trace so_sys].
    split; [by apply Forall_singleton|]. split; [apply plain_nil|]. intros _ _ x Hx. by apply elem_of_nil in Hx. }
  cbn [pfor]. pose proof (prompt_one_spec W o names s x t Hs (Hl x (elem_of_list_here _ _)) Ht) as H1.
  cbv zeta in H1. unfold pbind. revert H1. generalize (prompt_one o x t) as p. intros p (A1 & A2 & A3).
  destruct (po_res p) as [[]|e].
  - specialize (A3 tt eq_refl). destruct A3 as (n & i & A3 & A4).
    apply Forall_cons in A1 as [B1 B2].
    specialize (IH (λ y Hy, Hl y (elem_of_list_further _ _ _ Hy)) (po_sys p) B1). cbv zeta in IH.
    revert IH. generalize (pfor l (prompt_one o) (po_sys p)) as p2. intros p2 (C1 & C2 & C3).
    apply Forall_cons in C1 as [D1 D2]. cbn [states po_res po_trace po_sys po_ev].
    split; [constructor; [done|]; by apply Forall_app|]. split; [by apply plain_app|].
    intros a E y Hy. apply elem_of_cons in Hy as [-> |Hy].
    + exists n, i. split; [apply elem_of_app; by left|exact A4].
    + destruct (C3 a E y Hy) as (n' & i' & H & H'). exists n', i'. split; [apply elem_of_app; by right|exact H'].
  - cbn [states po_res po_trace po_sys po_ev]. split; [done|]. split; [done|]. intros a E. discriminate E.
Qed.

(** *** The loop of deletions is that of Lifecycle.v, with messages *)
Definition fmap_res {A B : Type} (h : A → B) (r : res A) : res B := match r with Ok a => Ok (h a) | Err e => Err e end.
Lemma loud_tolerant {A B C C' D D' : Type} (g : S_ A) (d : A → S_ B) (w : res B → event) (R : P_ C) (R' : S_ C')
    (fin : res B → C → D) (fin' : bool → C' → D') (h : C → C') (h' : D → D') (t : sys) :
  (∀ u, po_trace (R u) = so_trace (R' u) ∧ po_sys (R u) = so_sys (R' u) ∧ fmap_res h (po_res (R u)) = so_res (R' u) ∧
        plain (po_ev (R u))) →
  (∀ r c, h' (fin r c) = fin' (is_ok r) (h c)) → (∀ r, ∃ x, w r = Line x) →
  let p := (sb <~p plift g ;p
            r <~p plift (λ s, let o := d sb s in SOut (so_trace o) (so_sys o) (Ok (so_res o))) ;p
            say (w r) ;p
            rest <~p R ;p
            pret (fin r rest)) t in
  let q := tolerant g d R' fin' t in
  po_trace p = so_trace q ∧ po_sys p = so_sys q ∧ fmap_res h' (po_res p) = so_res q ∧ plain (po_ev p).
Proof.
  intros HR Hfin Hw. cbv zeta. unfold tolerant, sbind, sret, pbind, pret, plift, say.
  destruct (g t) as [tr s1 [a|e]]; cbn [po_res po_trace po_sys po_ev so_res so_trace so_sys].
  2:{ split; [done|]. split; [done|]. split; [done|]. apply plain_nil. }
  destruct (d a s1) as [tr2 s2 r2]; cbn [po_res po_trace po_sys po_ev so_res so_trace so_sys].
  destruct (HR s2) as (H1 & H2 & H3 & H4).
  destruct (R s2) as [tr3 s3 ev3 r3]. destruct (R' s2) as [tr4 s4 r4].
  cbn [po_res po_trace po_sys po_ev so_res so_trace so_sys] in *. subst tr4 s4.
  destruct r3 as [c|e]; cbn [fmap_res] in H3; subst r4;
    cbn [po_res po_trace po_sys po_ev so_res so_trace so_sys fmap_res sret]; rewrite ?app_nil_r; cbn [app];
    (split; [done|]); (split; [done|]).
  - split; [by rewrite Hfin|]. constructor; [apply Hw|exact H4].
  - split; [done|]. constructor; [apply Hw|exact H4].
Qed.
Lemma delete_loop_cons (o : opts) (name : string) (l : list string) :
  delete_loop o (name :: l) =
  (sb <~p plift (sandbox_get_or_stopped (o_umask o) (o_storage o) name) ;p
   r <~p plift (λ s, let d := sandbox_delete (o_ord o) (o_busy o) (e_ord (o_env o)) sb s in
                     SOut (so_trace d) (so_sys d) (Ok (so_res d))) ;p
   say ((λ r : res unit, Line (match r with Ok _ => "Deleted sandbox: " +:+ name
               | Err e => "Error deleting sandbox: " +:+ o_show o e end)) r) ;p
   rest <~p delete_loop o l ;p
   pret ((λ (r : res unit) rest, match r with
         | Ok _ => (name :: fst rest, snd rest)
         | Err e => (fst rest, o_show o e :: snd rest)
         end) r rest)).
Proof. reflexivity. Qed.
Lemma delete_loop_each (o : opts) (names : list string) (t : sys) :
  let p := delete_loop o names t in
  let q := delete_each (o_umask o) (o_ord o) (o_busy o) (e_ord (o_env o)) (o_storage o) names t in
  po_trace p = so_trace q ∧ po_sys p = so_sys q ∧
  fmap_res (λ x, (x.1, length x.2)) (po_res p) = so_res q ∧ plain (po_ev p).
Proof.
  revert t. induction names as [|name l IH]; intros t; cbv zeta.
  { split; [done|]. split; [done|]. split; [done|]. apply plain_nil. }
  rewrite delete_loop_cons, delete_each_tolerant.
  apply (loud_tolerant _ _ _ _ _ _ _ (λ x : list string * list string, (x.1, length x.2))).
  - exact IH.
  - intros [[]|e] [d es]; reflexivity.
  - intros r. by eexists.
Qed.

(** *** The course of the command *)
Definition marked (run stopped : list string) : list (string * bool) :=
  ((λ n, (n, false)) <$> run) ++ ((λ n, (n, true)) <$> stopped).
Lemma marked_fst (run stopped : list string) : (marked run stopped).*1 = run ++ stopped.
Proof.
  unfold marked. rewrite fmap_app, <-!list_fmap_compose. f_equal.
  - induction run as [|x l IH]; [done|]. cbn. f_equal. exact IH.
  - induction stopped as [|x l IH]; [done|]. cbn. f_equal. exact IH.
Qed.
Definition report (d errs : list string) : list event :=
  [Line (show_nat (length d) +:+ " sandboxes deleted"); Put "status" (JStr "success");
   Put "deleted" (JArr (JStr <$> d)); Put "errors" (JArr (JStr <$> errs))].
Definition delete_shape (N : S_ (list string * list string)) (C : list (string * bool) → P_ bool)
    (L : list string → P_ (list string * list string)) (none : string) : P_ unit :=
  l <~p plift N ;p
  let '(run, stopped) := (l : list string * list string) in
  match run ++ stopped with
  | [] => say (Line none)
  | _ =>
      go <~p C (marked run stopped) ;p
      if (go : bool) then
        r <~p L (run ++ stopped) ;p
        say (Line (show_nat (length (fst r)) +:+ " sandboxes deleted")) ;p
        say (Put "status" (JStr "success")) ;p
        say (Put "deleted" (JArr (JStr <$> fst r))) ;p
        say (Put "errors" (JArr (JStr <$> snd r)))
      else pret tt
  end.
Lemma delete_cmd_shape (o : opts) (force : bool) (patterns : list string) :
  delete_cmd o force patterns =
  delete_shape (delete_names o patterns) (confirm o force) (delete_loop o)
    (match patterns with
     | [] => "No sandbox by the name of '" +:+ o_name o +:+ "' found to delete."
     | _ => "No sandboxes found matching the specified patterns."
     end).
Proof. reflexivity. Qed.

Inductive delete_case (N : sout (list string * list string)) (C : list (string * bool) → P_ bool)
    (L : list string → P_ (list string * list string)) (none : string) (p : pout unit) : Prop :=
  | DC_failed e : so_res N = Err e → p = POut (so_trace N) (so_sys N) [] (Err e) → delete_case N C L none p
  | DC_nothing : so_res N = Ok ([], []) → p = POut (so_trace N) (so_sys N) [Line none] (Ok tt) →
      delete_case N C L none p
  | DC_stuck run stopped c e : so_res N = Ok (run, stopped) → run ++ stopped ≠ [] →
      C (marked run stopped) (so_sys N) = c → po_res c = Err e →
      p = POut (so_trace N ++ po_trace c) (po_sys c) (po_ev c) (Err e) → delete_case N C L none p
  | DC_no run stopped c : so_res N = Ok (run, stopped) → run ++ stopped ≠ [] →
      C (marked run stopped) (so_sys N) = c → po_res c = Ok false →
      p = POut (so_trace N ++ po_trace c) (po_sys c) (po_ev c) (Ok tt) → delete_case N C L none p
  | DC_yes run stopped c d x evs r : so_res N = Ok (run, stopped) → run ++ stopped ≠ [] →
      C (marked run stopped) (so_sys N) = c → po_res c = Ok true →
      L (run ++ stopped) (po_sys c) = d →
      p = POut (so_trace N ++ po_trace c ++ po_trace d) (po_sys d) (po_ev c ++ po_ev d ++ evs) r →
      match po_res d with
      | Ok y => y = x ∧ evs = report y.1 y.2 ∧ r = Ok tt
      | Err e => evs = [] ∧ r = Err e
      end → delete_case N C L none p.
Lemma delete_cases (N : S_ (list string * list string)) (C : list (string * bool) → P_ bool)
    (L : list string → P_ (list string * list string)) (none : string) (s : sys) :
  delete_case (N s) C L none (delete_shape N C L none s).
Proof.
  unfold delete_shape. destruct (N s) as [trN sN [[run stopped]|e]] eqn:EN.
  2:{ apply (DC_failed _ _ _ _ _ e); [done|]. rewrite (pbind_err _ _ _ trN sN [] e); [done|].
      unfold plift. by rewrite EN. }
  rewrite (pbind_ok _ _ _ trN sN [] (run, stopped)); [|unfold plift; by rewrite EN].
  destruct (run ++ stopped) as [|x l] eqn:El.
  { apply app_eq_nil in El as [-> ->]. apply DC_nothing; [done|]. cbn. by rewrite app_nil_r. }
  rewrite <-El. assert (run ++ stopped ≠ []) as Hne by (by rewrite El).
  destruct (C (marked run stopped) sN) as [trC sC evC [go|e]] eqn:EC.
  2:{ eapply (DC_stuck _ _ _ _ _ run stopped); [done|done|exact EC|done|].
      by rewrite (pbind_err _ _ _ _ _ _ _ EC). }
  rewrite (pbind_ok _ _ _ _ _ _ _ EC). destruct go.
  - destruct (L (run ++ stopped) sC) as [trL sL evL [d|e]] eqn:EL.
    + rewrite (pbind_ok _ _ _ _ _ _ _ EL).
      eapply (DC_yes _ _ _ _ _ run stopped _ _ d (report d.1 d.2) (Ok tt)); [done|done|exact EC|done|exact EL| |].
      * cbn. rewrite !app_nil_r. reflexivity.
      * cbn. done.
    + rewrite (pbind_err _ _ _ _ _ _ _ EL).
      eapply (DC_yes _ _ _ _ _ run stopped _ _ ([], []) [] (Err e)); [done|done|exact EC|done|exact EL| |].
      * cbn. rewrite !app_nil_r. reflexivity.
      * cbn. done.
  - eapply (DC_no _ _ _ _ _ run stopped); [done|done|exact EC|done|]. cbn. by rewrite !app_nil_r.
Qed.

(** *** The answer *)
Lemma trim_start_spec (s : string) : ∃ l, blank l ∧ s = l +:+ Ignore.trim_start s.
Proof.
  induction s as [|c s (l & Hl & E)]; [by exists ""|]. cbn [Ignore.trim_start].
  destruct (Ignore.is_space c) eqn:Ec; [|by exists ""].
  exists (String c l). split; [unfold blank; cbn [to_bytes forallb]; by rewrite Ec|].
  rewrite E at 1. reflexivity.
Qed.
Lemma trim_start_blank (l s : string) : blank l → Ignore.trim_start (l +:+ s) = Ignore.trim_start s.
Proof.
  intros H. induction l as [|c l IH]; [done|]. unfold blank in H. cbn [to_bytes forallb] in H.
  apply andb_prop in H as [H1 H2]. change (String c l +:+ s) with (String c (l +:+ s)). cbn [Ignore.trim_start].
  rewrite H1. by apply IH.
Qed.
Lemma blank_rev (s : string) : blank s → blank (str_rev s).
Proof.
  unfold blank, str_rev. rewrite to_of_bytes, !forallb_forall. intros H x Hx. apply H. by apply in_rev in Hx.
Qed.
Lemma lower_y (a : ascii) : lower a = "y"%char → a = "y"%char ∨ a = "Y"%char.
Proof. destruct a as [[] [] [] [] [] [] [] []]; intros H; vm_compute in H; try discriminate H; by vm_compute; auto. Qed.
Lemma confirms_spec (answer : string) : confirms answer = true ↔ says_yes answer.
Proof.
  unfold confirms. rewrite String.eqb_eq. split.
  - intros H. unfold Ignore.trim, trim_end in H.
    destruct (trim_start_spec answer) as (l & Hl & E).
    destruct (trim_start_spec (str_rev (Ignore.trim_start answer))) as (r & Hr & Er).
    revert H Er. generalize (Ignore.trim_start (str_rev (Ignore.trim_start answer))) as m. intros m H Er.
    exists l, (str_rev r). split; [done|]. split; [by apply blank_rev|].
    apply (f_equal str_rev) in Er. rewrite str_rev_involutive, str_rev_app in Er. rewrite E, Er.
    apply (f_equal to_bytes) in H. unfold to_lowercase in H. rewrite to_of_bytes in H.
    assert (∃ a, to_bytes (str_rev m) = [a] ∧ lower a = "y"%char) as (a & Ea & Hy).
    { destruct (to_bytes (str_rev m)) as [|a [|b k]]; cbn in H; try discriminate H. exists a.
      split; [done|]. by injection H. }
    assert (str_rev m = of_bytes [a]) as -> by (by rewrite <-Ea, of_to_bytes).
    destruct (lower_y a Hy) as [-> | ->]; [by left|by right].
  - intros (l & r & Hl & Hr & [-> | ->]); unfold Ignore.trim, trim_end; rewrite trim_start_blank by done;
      (match goal with |- context [Ignore.trim_start (?y +:+ r)] => 
        change (Ignore.trim_start (y +:+ r)) with (y +:+ r) end);
      rewrite str_rev_app, trim_start_blank by (by apply blank_rev); reflexivity.
Qed.

Lemma still_less (W : string → Prop) (storage : path) (l k : list string) (s t : sys) :
  k ⊆ l → still W storage l s t → still W storage k s t.
Proof. intros H [H1 H2]. split; [by eapply progress_less|done]. Qed.
Lemma still_nil (W : string → Prop) (storage : path) (l : list string) (s : sys) (k : list sys) :
  Forall (still W storage l s) k → Forall (still W storage [] s) k.
Proof. intros H. eapply Forall_impl; [exact H|]. intros t. apply still_less, list_subseteq_nil. Qed.

Lemma delete_names_spec (o : opts) (patterns : list string) (s : sys) :
  tidy_storage (wanted o patterns s) (o_storage o) s →
  let N := delete_names o patterns s in
  Forall (still (wanted o patterns s) (o_storage o) [] s) (so_sys N :: so_trace N) ∧
  ∀ run stopped, so_res N = Ok (run, stopped) →
    NoDup (run ++ stopped) ∧ still (wanted o patterns s) (o_storage o) (run ++ stopped) s (so_sys N) ∧
    (run ++ stopped ≠ [] → ∀ n, wanted o patterns s n → n ∈ run ++ stopped).
Proof.
  intros Hs. cbv zeta. destruct patterns as [|p ps].
  - assert (still (wanted o [] s) (o_storage o) [o_name o] s s) as H0.
    { apply still_start; [done|]. intros n Hn. by apply elem_of_list_singleton in Hn. }
    destruct (still_get _ _ _ (o_umask o) (o_name o) s s Hs (elem_of_list_here _ _) H0) as [H1 _].
    cbn [delete_names]. 
    rewrite !(sbind_get_eq (λ s, Ok (sandbox_exists (s_fs s) (o_storage o) (o_name o))) _ s
                (sandbox_exists (s_fs s) (o_storage o) (o_name o)) eq_refl).
    destruct (sandbox_exists (s_fs s) (o_storage o) (o_name o)).
    + revert H1. generalize (sandbox_get (o_umask o) (o_storage o) (o_name o)) as g. intros g H1.
      unfold sget, sbind, sret. cbn [so_res so_sys so_trace].
      destruct (g s) as [tr s1 [sb|e]]; cbn [so_res so_sys so_trace app] in *; rewrite ?app_nil_r.
      * split; [eapply still_nil; exact H1|]. intros run stopped E.
        apply Forall_cons in H1 as [H1 _].
        destruct sb as [sb|]; injection E as <- <-; (split; [apply NoDup_singleton|]); (split; [exact H1|]);
          intros _ n ->; apply elem_of_list_here.
      * split; [eapply still_nil; exact H1|]. intros run stopped E. discriminate E.
    + unfold sget, sret. cbn [so_res so_sys so_trace app]. split.
      * apply Forall_singleton. eapply still_less; [|exact H0]. apply list_subseteq_nil.
      * intros run stopped E. injection E as <- <-. split; [constructor|].
        split; [|done]. eapply still_less; [|exact H0]. apply list_subseteq_nil.
  - destruct (listed_names (e_glob (o_env o)) (p :: ps) s (o_storage o) Hs) as (run & stopped & E & Hnd & Hw).
    cbn [delete_names]. unfold sget. cbn [so_res so_sys so_trace]. rewrite E.
    assert (∀ l, (∀ n, n ∈ l → n ∈ run ++ stopped) → still (wanted o (p :: ps) s) (o_storage o) l s s) as H0.
    { intros l Hl. apply still_start; [done|]. intros n Hn. apply Hw. by apply Hl. }
    split.
    + apply Forall_singleton. apply H0. intros n Hn. by apply elem_of_nil in Hn.
    + intros run' stopped' E'. injection E' as <- <-. split; [done|]. split; [by apply H0|].
      intros _ n Hn. by apply Hw.
Qed.

Lemma confirm_eq (g : P_ unit) (w z : string) (answer : res string) (t : sys) :
  (say (Line w) ;p g ;p say Ask ;p
   a <~p pget (λ _, answer) ;p
   if confirms a then pret true else say (Line z) ;p pret false) t =
  let '(POut tr s1 ev r) := g t in
  match r with
  | Ok _ => match answer with
            | Ok a => if confirms a then POut tr s1 (Line w :: ev ++ [Ask]) (Ok true)
                      else POut tr s1 (Line w :: ev ++ [Ask; Line z]) (Ok false)
            | Err e => POut tr s1 (Line w :: ev ++ [Ask]) (Err e)
            end
  | Err e => POut tr s1 (Line w :: ev) (Err e)
  end.
Proof.
  unfold pbind, pget, plift, sget, pret, sret, say. cbn [po_res po_trace po_sys po_ev so_res so_trace so_sys].
  destruct (g t) as [tr s1 ev [[]|e]]; cbn [po_res po_trace po_sys po_ev so_res so_trace so_sys]; [|done].
  destruct answer as [a|e]; cbn [po_res po_trace po_sys po_ev so_res so_trace so_sys]; [|by rewrite !app_nil_r].
  destruct (confirms a); cbn [po_res po_trace po_sys po_ev so_res so_trace so_sys]; by rewrite !app_nil_r.
Qed.
Lemma confirm_spec (W : string → Prop) (o : opts) (names : list string) (s : sys) (l : list (string * bool)) (t : sys) :
  tidy_storage W (o_storage o) s → (∀ x, x ∈ l → x.1 ∈ names) → still W (o_storage o) names s t →
  let p := confirm o false l t in
  Forall (still W (o_storage o) names s) (states p) ∧
  (∀ b, po_res p = Ok b → ∃ a, o_answer o = Ok a ∧ confirms a = b ∧
     ∃ pre post, po_ev p = pre ++ Ask :: post ∧ plain pre ∧ plain post ∧
       ∀ x, x ∈ l → ∃ n i, Line (entry_line x.1 x.2 n i) ∈ pre ∧ counted W o s x.1 n i).
Proof.
  intros Hs Hl Ht. cbv zeta.
  pose proof (prompt_all W o names s l Hs Hl t Ht) as H. cbv zeta in H.
  unfold confirm. rewrite confirm_eq. revert H. generalize (pfor l (prompt_one o)) as g. intros g (H1 & H2 & H3).
  destruct (g t) as [tr s1 ev [[]|e]]; cbn [po_res po_trace po_sys po_ev states] in *.
  - assert (∀ k, plain k → ∃ pre post, Line "The following sandboxes will be deleted:" :: ev ++ Ask :: k = pre ++ Ask :: post ∧
      plain pre ∧ plain post ∧ ∀ x, x ∈ l → ∃ n i, Line (entry_line x.1 x.2 n i) ∈ pre ∧ counted W o s x.1 n i) as Hpre.
    { intros k Hk. exists (Line "The following sandboxes will be deleted:" :: ev), k. split; [done|].
      split; [constructor; [by eexists|done]|]. split; [done|].
      intros x Hx. destruct (H3 tt eq_refl x Hx) as (n & i & Hi & Hi'). exists n, i. split; [by right|exact Hi']. }
    destruct (o_answer o) as [a|e]; [destruct (confirms a) eqn:Ec|]; cbn [po_res po_trace po_sys po_ev].
    + split; [exact H1|]. intros b E. injection E as <-. exists a. split; [done|]. split; [done|]. apply Hpre, plain_nil.
    + split; [exact H1|]. intros b E. injection E as <-. exists a. split; [done|]. split; [done|]. apply Hpre, plain_line.
    + split; [exact H1|]. intros b E. discriminate E.
  - cbn [po_res po_trace po_sys po_ev]. split; [exact H1|]. intros b E. discriminate E.
Qed.

Lemma screen_split (json : bool) (pre post rest : list event) :
  omap (visible json) ((pre ++ Ask :: post) ++ rest) =
  omap (visible json) pre ++ Asked :: omap (visible json) (post ++ rest).
Proof. rewrite <-app_assoc, omap_app. reflexivity. Qed.
Lemma visible_lines (x : string) (l : list event) : Line x ∈ l → Printed x ∈ omap (visible false) l.
Proof. intros H. apply elem_of_list_omap. by exists (Line x). Qed.

(** Before the user has said yes, with the names of all sandboxes concerned on the screen, nothing happens;
    afterwards only these sandboxes are affected. With --json the names are not on the screen. *)
Theorem C72_asks_before_deleting_partial (o : opts) (json : bool) (patterns : list string) (s : sys) :
  (∀ l, e_ord (o_env o) l ≡ₚ l) →
  tidy_storage (wanted o patterns s) (o_storage o) s →
  let r := main_run o (Ok tt) json (ADelete false patterns) s in
  ∀ t, t ∈ rn_sys r :: rn_trace r →
    calm (wanted o patterns s) (o_storage o) s t ∨
    (∃ answer, o_answer o = Ok answer ∧ says_yes answer) ∧
    only_of (wanted o patterns s) (o_storage o) s t ∧
    Asked ∈ oc_screen (rn_out r) ∧
    (json = false → ∀ name, wanted o patterns s name → shown_before_asking (wanted o patterns s) o s (oc_screen (rn_out r)) name).
Proof.
  intros Hord Hs. cbv zeta. unfold main_run. cbn [dispatch rn_sys rn_trace rn_out Output.finish oc_screen].
  rewrite delete_cmd_shape.
  pose proof (delete_names_spec o patterns s Hs) as HN. cbv zeta in HN.
  revert Hs HN. set (W := wanted o patterns s). clearbody W. generalize (delete_names o patterns) as N.
  intros N Hs [HN1 HN2].
  match goal with |- context [delete_shape N ?C ?L ?z s] => pose proof (delete_cases N C L z s) as Hcase end.
  revert Hcase. generalize (delete_shape N (confirm o false) (delete_loop o)
    match patterns with [] => "No sandbox by the name of '" +:+ o_name o +:+ "' found to delete."
    | _ :: _ => "No sandboxes found matching the specified patterns." end s) as p.
  intros p Hcase.
  assert (∀ l t, Forall (still W (o_storage o) [] s) l → t ∈ l → calm W (o_storage o) s t) as Hcalm.
  { intros l t H Ht. rewrite Forall_forall in H. apply (H t Ht). }
  destruct Hcase as [e E1 ->|E1 ->|run stopped c e E1 E2 E3 E4 ->|run stopped c E1 E2 E3 E4 ->|
    run stopped c d x evs r E1 E2 E3 E4 E5 -> E6]; cbn [po_trace po_sys po_ev].
  - intros t Ht. left. by eapply Hcalm.
  - intros t Ht. left. by eapply Hcalm.
  - destruct (HN2 _ _ E1) as (Hnd & Hst & _). intros t Ht. left.
    assert (∀ y, y ∈ marked run stopped → y.1 ∈ run ++ stopped) as Hm.
    { intros y Hy. rewrite <-marked_fst. by apply elem_of_list_fmap_1. }
    destruct (confirm_spec W o (run ++ stopped) s (marked run stopped) (so_sys (N s)) Hs Hm Hst) as [Hc _].
    rewrite E3 in Hc. apply still_nil in Hc. apply Forall_cons in Hc as [Hc1 Hc2]. apply Forall_cons in HN1 as [_ HN1].
    eapply Hcalm; [|exact Ht]. constructor; [done|]. by apply Forall_app.
  - destruct (HN2 _ _ E1) as (Hnd & Hst & _). intros t Ht. left.
    assert (∀ y, y ∈ marked run stopped → y.1 ∈ run ++ stopped) as Hm.
    { intros y Hy. rewrite <-marked_fst. by apply elem_of_list_fmap_1. }
    destruct (confirm_spec W o (run ++ stopped) s (marked run stopped) (so_sys (N s)) Hs Hm Hst) as [Hc _].
    rewrite E3 in Hc. apply still_nil in Hc. apply Forall_cons in Hc as [Hc1 Hc2]. apply Forall_cons in HN1 as [_ HN1].
    eapply Hcalm; [|exact Ht]. constructor; [done|]. by apply Forall_app.
  - destruct (HN2 _ _ E1) as (Hnd & Hst & Hall). specialize (Hall E2). intros t Ht.
    assert (∀ y, y ∈ marked run stopped → y.1 ∈ run ++ stopped) as Hm.
    { intros y Hy. rewrite <-marked_fst. by apply elem_of_list_fmap_1. }
    destruct (confirm_spec W o (run ++ stopped) s (marked run stopped) (so_sys (N s)) Hs Hm Hst) as [Hc Hyes].
    rewrite E3 in Hc, Hyes. destruct (Hyes true E4) as (a & Ha & Hca & pre & post & Hev & _ & _ & Hlines).
    pose proof Hc as Hc0. apply still_nil in Hc0. apply Forall_cons in Hc0 as [Hc1 Hc2].
    apply Forall_cons in HN1 as [_ HN1]. apply Forall_cons in Hc as [Hc _].
    rewrite app_assoc in Ht.
    assert (t ∈ so_trace (N s) ++ po_trace c ∨ t ∈ po_sys d :: po_trace d) as [Hin|Ht'].
    { apply elem_of_cons in Ht as [-> |Ht]; [right; left|]. apply elem_of_app in Ht as [Ht|Ht]; [by left|by right; right]. }
    { left. eapply Hcalm; [|exact Hin]. by apply Forall_app. }
    right. split; [exists a; split; [done|]; by apply confirms_spec|].
    destruct (delete_loop_each o (run ++ stopped) (po_sys c)) as (L1 & L2 & _). rewrite E5 in L1, L2.
    rewrite L1, L2 in Ht'.
    pose proof (delete_each_progress W (o_umask o) (o_ord o) (o_busy o) (e_ord (o_env o)) (o_storage o) s Hord _ _ Hnd
      (sl_progress _ _ _ _ _ Hc)) as Hp.
    rewrite Forall_forall in Hp. split; [apply (Hp t Ht')|]. rewrite Hev. split.
    { apply elem_of_list_omap. exists Ask. split; [|done]. apply elem_of_app. left. apply elem_of_app. right. left. }
    intros -> name Hname. specialize (Hall name Hname).
    assert (∃ y, y ∈ marked run stopped ∧ y.1 = name) as ([y st] & Hy & Ey).
    { rewrite <-marked_fst in Hall. apply elem_of_list_fmap in Hall as (y & -> & Hy). by exists y. }
    cbn [fst] in Ey. subst y. destruct (Hlines _ Hy) as (n & i & Hl & Hl'). cbn [fst snd] in Hl, Hl'.
    exists (omap (visible false) pre), (omap (visible false) (post ++ po_ev d ++ evs)), st, n, i. split.
    + apply screen_split.
    + split; [by apply visible_lines|exact Hl'].
Qed.
Print Assumptions C72_asks_before_deleting_partial.

(** With --yes nothing is asked. *)
Lemma plain_no_ask (json : bool) (l : list event) : plain l → Asked ∉ omap (visible json) l.
Proof.
  intros H Hin. apply elem_of_list_omap in Hin as (v & Hv & E). unfold plain in H. rewrite Forall_forall in H.
  destruct (H v Hv) as [x ->]. by destruct json.
Qed.
Lemma confirm_true (o : opts) (l : list (string * bool)) (t : sys) : confirm o true l t = POut [] t [] (Ok true).
Proof. reflexivity. Qed.
Theorem C72_yes_flag_asks_nothing (o : opts) (json : bool) (patterns : list string) (s : sys) :
  Asked ∉ oc_screen (rn_out (main_run o (Ok tt) json (ADelete true patterns) s)).
Proof.
  unfold main_run. cbn [dispatch rn_out Output.finish oc_screen]. rewrite delete_cmd_shape.
  match goal with |- context [delete_shape ?N ?C ?L ?z s] => pose proof (delete_cases N C L z s) as Hcase end.
  match type of Hcase with delete_case _ _ _ _ ?t => revert Hcase; generalize t end. intros p Hcase.
  destruct Hcase as [e E1 ->|E1 ->|run stopped c e E1 E2 E3 E4 ->|run stopped c E1 E2 E3 E4 ->|
    run stopped c d x evs r E1 E2 E3 E4 E5 -> E6]; cbn [po_ev].
  - apply not_elem_of_nil.
  - apply plain_no_ask, plain_line.
  - rewrite confirm_true in E3. subst c. discriminate E4.
  - rewrite confirm_true in E3. subst c. discriminate E4.
  - rewrite confirm_true in E3. subst c. cbn [po_ev app po_sys] in *.
    destruct (delete_loop_each o (run ++ stopped) (so_sys (delete_names o patterns s))) as (_ & _ & _ & L4).
    rewrite E5 in L4.
    intros H. rewrite omap_app in H. apply elem_of_app in H as [H|H]; [by apply (plain_no_ask json) in L4|].
    destruct (po_res d) as [y|e].
    + destruct E6 as (_ & -> & _). destruct json; cbn in H;
        [by apply elem_of_nil in H|by apply elem_of_list_singleton in H].
    + destruct E6 as (-> & _). by apply elem_of_nil in H.
Qed.
Print Assumptions C72_yes_flag_asks_nothing.

(** ** C71 *)
(** The object that --json prints, of any command that gets as far as its action and does not panic:
    "status" is "success" if and only if the exit status is 0 and the action gave no error, "error" otherwise,
    with exit status 1 and the message. No other line is printed. *)
Lemma fields_app (l k : list event) :
  fields (l ++ k) = foldl (λ m v, match v with Put key x => <[key := x]> m | _ => m end) (fields l) k.
Proof. unfold fields. apply foldl_app. Qed.
Theorem C71_status_field_partial (o : opts) (a : action) (s : sys) :
  let r := main_run o (Ok tt) true a s in
  (∀ x, Printed x ∉ oc_screen (rn_out r)) ∧
  (oc_exit (rn_out r) ≠ 101%N →
   ∃ obj, oc_object (rn_out r) = Some obj ∧
     (oc_exit (rn_out r) = 0%N ∧ po_res (dispatch o true a s) = Ok tt ∧ obj !! "status" = Some (JStr "success") ∨
      oc_exit (rn_out r) = 1%N ∧ obj !! "status" = Some (JStr "error") ∧
      ∃ e, po_res (dispatch o true a s) = Err e ∧ obj !! "error" = Some (JStr (o_show o e)))).
Proof.
  cbv zeta. unfold main_run. cbn [rn_out Output.finish oc_screen oc_object oc_exit].
  generalize (dispatch o true a s) as p. intros p. split.
  - intros x H. apply elem_of_list_omap in H as ([y| |] & _ & E); discriminate E.
  - destruct (po_res p) as [[]|e]; cbn [exit_of object_of].
    + intros _. eexists. split; [reflexivity|]. left. split; [done|]. split; [done|]. apply lookup_insert.
    + assert ((exit_of (Err e) = 101%N ∧ object_of (o_show o) (po_ev p) (Err e) = None) ∨
        exit_of (Err e) = 1%N ∧ object_of (o_show o) (po_ev p) (Err e) =
        Some (<["error" := JStr (o_show o e)]> (<["status" := JStr "error"]> (fields (po_ev p))))) as [[E _]|[E1 E2]].
      { destruct e; cbn [exit_of object_of]; auto. }
      * intros H. by destruct H.
      * intros _. cbn [exit_of object_of] in E1, E2. eexists. split; [exact E2|]. right. split; [exact E1|]. split.
        -- rewrite lookup_insert_ne by discriminate. apply lookup_insert.
        -- exists e. split; [done|]. apply lookup_insert.
Qed.
Print Assumptions C71_status_field_partial.
(** --json only changes what is printed (`diff` refuses it). *)
Theorem C71_json_same_effect (o : opts) (pre : res unit) (a : action) (s : sys) :
  (∀ patterns, a ≠ ADiff patterns) →
  let r := main_run o pre true a s in
  let r' := main_run o pre false a s in
  rn_trace r = rn_trace r' ∧ rn_sys r = rn_sys r' ∧ oc_exit (rn_out r) = oc_exit (rn_out r') ∧
  oc_object (rn_out r') = None.
Proof.
  intros Ha. cbv zeta. unfold main_run. destruct pre as [u|e]; [|done].
  assert (dispatch o true a = dispatch o false a) as -> by (destruct a; try done; by destruct (Ha patterns)).
  generalize (dispatch o false a s) as p. intros p. done.
Qed.
Print Assumptions C71_json_same_effect.
(** The report of `delete`. The names under "deleted" are those of matching sandboxes that are gone; every
    other matching sandbox has a message under "errors". *)
Lemma plain_fields (l : list event) : plain l → fields l = ∅.
Proof.
  unfold fields. generalize (∅ : gmap string Output.json) as m. intros m H. revert m.
  induction H as [|v l [x ->] Hl IH]; intros m; [done|]. apply IH.
Qed.
Lemma strings_inj (d d' : list string) : JStr <$> d = JStr <$> d' → d = d'.
Proof.
  revert d'. induction d as [|x d IH]; intros [|y d'] H; [done|discriminate H|discriminate H|].
  injection H as -> H. f_equal. by apply IH.
Qed.
Lemma report_fields (l : list event) (d errs : list string) :
  fields (l ++ report d errs) =
  <["errors" := JArr (JStr <$> errs)]> (<["deleted" := JArr (JStr <$> d)]> (<["status" := JStr "success"]> (fields l))).
Proof. rewrite fields_app. reflexivity. Qed.
Definition report_ok (W : string → Prop) (storage : path) (f : fs) (obj : gmap string Output.json) : Prop :=
  ∀ v, obj !! "deleted" = Some v → ∃ d errs all,
    v = JArr (JStr <$> d) ∧ obj !! "errors" = Some (JArr (JStr <$> errs)) ∧
    (∀ name, name ∈ d → W name ∧ deleted storage name f) ∧
    NoDup d ∧ NoDup all ∧ (∀ name, name ∈ all ↔ W name) ∧ length d + length errs = length all.
Lemma delete_report (o : opts) (W : string → Prop) (names : list string) (s t : sys) (p : pout (list string * list string))
    (x : list string * list string) :
  (∀ l, e_ord (o_env o) l ≡ₚ l) → apart W → NoDup names → progress W (o_storage o) names s t →
  (∀ n, W n → n ∈ names) → delete_loop o names t = p → po_res p = Ok x →
  (∀ name, name ∈ x.1 → W name ∧ deleted (o_storage o) name (s_fs (po_sys p))) ∧ NoDup x.1 ∧
  (∀ name, name ∈ names ↔ W name) ∧ length x.1 + length x.2 = length names.
Proof.
  intros Hord Hap Hnd Hp Hall Ep Ex.
  destruct (delete_loop_each o names t) as (_ & L2 & L3 & _). rewrite Ep in L2, L3. rewrite Ex in L3. cbn [fmap_res] in L3.
  destruct (delete_each_report W (o_umask o) (o_ord o) (o_busy o) (e_ord (o_env o)) (o_storage o) s Hord Hap
    names t _ _ Hnd Hp (eq_sym L3)) as (R1 & R2 & R3).
  assert (∀ n, n ∈ names → W n) as Hw by (intros n Hn; by apply (pg_tidy _ _ _ _ _ Hp)).
  rewrite L2. split; [|split; [|split; [|done]]].
  - intros n Hn. split; [|by apply R3]. apply Hw. by eapply elem_of_submseteq; [|apply sublist_submseteq].
  - clear -R1 Hnd. induction R1 as [|y l k R1 IH|y l k R1 IH]; [done|..].
    + apply NoDup_cons in Hnd as [H1 H2]. apply NoDup_cons. split; [|by apply IH].
      intros H. apply H1. by eapply elem_of_submseteq; [|apply sublist_submseteq].
    + apply NoDup_cons in Hnd as [H1 H2]. by apply IH.
  - intros n. split; [apply Hw|apply Hall].
Qed.
Theorem C71_delete_report_partial (o : opts) (yes : bool) (patterns : list string) (s : sys)
    (obj : gmap string Output.json) :
  (∀ l, e_ord (o_env o) l ≡ₚ l) →
  tidy_storage (wanted o patterns s) (o_storage o) s → apart (wanted o patterns s) →
  let r := main_run o (Ok tt) true (ADelete yes patterns) s in
  oc_object (rn_out r) = Some obj → obj !! "status" = Some (JStr "success") →
  report_ok (wanted o patterns s) (o_storage o) (s_fs (rn_sys r)) obj.
Proof.
  intros Hord Hs Hap. cbv zeta. unfold main_run. cbn [dispatch rn_sys rn_out Output.finish oc_object].
  rewrite delete_cmd_shape.
  pose proof (delete_names_spec o patterns s Hs) as HN. cbv zeta in HN.
  revert Hs Hap HN. set (W := wanted o patterns s). clearbody W. generalize (delete_names o patterns) as N.
  intros N Hs Hap [HN1 HN2].
  match goal with |- context [delete_shape ?N ?C ?L ?z s] => pose proof (delete_cases N C L z s) as Hcase end.
  match type of Hcase with delete_case _ _ _ _ ?t => revert Hcase; generalize t end. intros p Hcase.
  assert (∀ l, plain l → report_ok W (o_storage o) (s_fs (po_sys p)) (<["status" := JStr "success"]> (fields l))) as Hplain.
  { intros l Hl v Hv. rewrite (plain_fields l Hl) in Hv. rewrite lookup_insert_ne in Hv by discriminate.
    rewrite lookup_empty in Hv. discriminate Hv. }
  assert (∀ e l, object_of (o_show o) l (Err e) = Some obj → obj !! "status" = Some (JStr "success") → False) as Herr.
  { intros e l E Est. assert (obj = <["error" := JStr (o_show o e)]> (<["status" := JStr "error"]> (fields l))) as ->.
    { destruct e; cbn [object_of] in E; try (by injection E as <-). discriminate E. }
    rewrite lookup_insert_ne in Est by discriminate. rewrite lookup_insert in Est. discriminate Est. }
  assert (∀ c pre post, po_ev c = pre ++ Ask :: post → plain pre → plain post →
    fields (po_ev (c : pout bool)) = ∅) as Hask.
  { intros c pre post -> H1 H2. rewrite fields_app, (plain_fields pre H1).
    cbn [foldl]. exact (plain_fields post H2). }
  destruct Hcase as [e E1 ->|E1 ->|run stopped c e E1 E2 E3 E4 ->|run stopped c E1 E2 E3 E4 ->|
    run stopped c d x evs r E1 E2 E3 E4 E5 -> E6]; cbn [po_sys po_ev po_res] in *.
  - intros E Est. by destruct (Herr _ _ E Est).
  - intros E _. cbn [object_of] in E. injection E as <-. apply Hplain, plain_line.
  - intros E Est. by destruct (Herr _ _ E Est).
  - intros E _. cbn [object_of] in E. injection E as <-.
    assert (fields (po_ev c) = ∅) as ->.
    { destruct yes; [rewrite confirm_true in E3; by subst c|].
      destruct (HN2 _ _ E1) as (Hnd & Hst & _).
      assert (∀ y, y ∈ marked run stopped → y.1 ∈ run ++ stopped) as Hm.
      { intros y Hy. rewrite <-marked_fst. by apply elem_of_list_fmap_1. }
      destruct (confirm_spec W o (run ++ stopped) s (marked run stopped) (so_sys (N s)) Hs Hm Hst) as [_ Hno].
      rewrite E3 in Hno. destruct (Hno _ E4) as (a & _ & _ & pre & post & Hev & P1 & P2 & _).
      by apply (Hask c pre post). }
    apply (Hplain [] plain_nil).
  - intros E Est. destruct (po_res d) as [y|e] eqn:Ed.
    2:{ destruct E6 as [-> ->]. by destruct (Herr _ _ E Est). }
    destruct E6 as (-> & -> & ->). cbn [object_of] in E. injection E as <-.
    destruct (HN2 _ _ E1) as (Hnd & Hst & Hall). specialize (Hall E2).
    assert (still W (o_storage o) (run ++ stopped) s (po_sys c)) as Hc.
    { destruct yes; [rewrite confirm_true in E3; by subst c|].
      assert (∀ y, y ∈ marked run stopped → y.1 ∈ run ++ stopped) as Hm.
      { intros y Hy. rewrite <-marked_fst. by apply elem_of_list_fmap_1. }
      destruct (confirm_spec W o (run ++ stopped) s (marked run stopped) (so_sys (N s)) Hs Hm Hst) as [Hc _].
      rewrite E3 in Hc. by apply Forall_cons in Hc as [Hc _]. }
    destruct (delete_report o W (run ++ stopped) s (po_sys c) d x Hord Hap Hnd (sl_progress _ _ _ _ _ Hc) Hall E5 Ed)
      as (R1 & R2 & R3 & R4).
    intros v Hv. rewrite app_assoc, report_fields in Hv |- *.
    rewrite lookup_insert_ne in Hv by discriminate. rewrite lookup_insert_ne in Hv by discriminate.
    rewrite lookup_insert in Hv. injection Hv as <-.
    exists x.1, x.2, (run ++ stopped). split; [done|]. split.
    { rewrite lookup_insert_ne by discriminate. apply lookup_insert. }
    split; [exact R1|]. split; [exact R2|]. split; [exact Hnd|]. split; [exact R3|exact R4].
Qed.
Print Assumptions C71_delete_report_partial.

(** ** What does not hold, and examples *)
Definition demo_config : config := Config 3 "a" "/home/.sandboxes" NetHost ∅ false [] false.
Definition demo_opts (glob : string → string → bool) (busy : path → bool) (answer : res string) : opts :=
  Opts 18 same_order busy (Env glob (λ l, l) (λ _ _, "uuid") ["home"] 18) home_storage "a" false answer (λ _ _, "")
    (Ok tt) (λ _, "failed") demo_config [].
(** A staged file in the running sandbox, a second sandbox, an overlay mounted. *)
Definition staged_sys : sys :=
  Sys (<[["home"; ".sandboxes"; "a"; "upper"; b32_encode "/"] := Node KDir 493 1000 1000 1 ∅]>
       (<[["home"; ".sandboxes"; "a"; "upper"; b32_encode "/"; "new"] := Node (KFile "text") 420 1000 1000 1 ∅]>
        (s_fs two_mounted)))
    (s_procs two_mounted) (s_mounts two_mounted).
Lemma staged_wanted (busy : path → bool) (answer : res string) (s : sys) : s_fs s = s_fs staged_sys →
  ∀ name, wanted (demo_opts starts_a busy answer) ["a*"] s name → name = "a".
Proof.
  intros Es name [H1 [H2|(p & _ & H2)]]; [discriminate H2|]. cbn [demo_opts o_storage o_env e_glob] in H1, H2.
  assert (name ∈ ["a"; "b"]) as Hi.
  { apply (locks_only (s_fs staged_sys) home_storage); [vm_compute; reflexivity|]. rewrite <-Es. exact H1. }
  apply elem_of_cons in Hi as [Hi|Hi]; [exact Hi|]. apply elem_of_list_singleton in Hi. rewrite Hi in H2. discriminate H2.
Qed.
Lemma staged_tidy (W : string → Prop) (s : sys) : s_fs s = s_fs staged_sys → s_mounts s = s_mounts staged_sys →
  (∀ name, W name → name = "a") → tidy_storage W home_storage s.
Proof.
  destruct s as [f ps ms]. cbn [s_fs s_mounts]. intros -> -> HW. split; cbn [s_fs].
  - apply wf_treeb_spec. vm_compute. reflexivity.
  - apply dirb_spec. vm_compute. reflexivity.
  - apply pid_files_okb_spec. vm_compute. reflexivity.
  - apply names_okb_spec. vm_compute. reflexivity.
  - intros name H. rewrite (HW name H). apply tidyb_spec. vm_compute. reflexivity.
  - intros m Hm _. apply elem_of_list_singleton in Hm as ->. exists "a", "overlay", ["etc"]. reflexivity.
Qed.
Lemma staged_a (busy : path → bool) (answer : res string) : wanted (demo_opts starts_a busy answer) ["a*"] staged_sys "a".
Proof.
  split; [vm_compute; eexists; reflexivity|]. right. exists "a*". split; [apply elem_of_list_here|reflexivity].
Qed.
Lemma staged_apart (busy : path → bool) (answer : res string) :
  apart (wanted (demo_opts starts_a busy answer) ["a*"] staged_sys).
Proof.
  intros x y Hx Hy. rewrite (staged_wanted busy answer _ eq_refl x Hx), (staged_wanted busy answer _ eq_refl y Hy).
  split; discriminate.
Qed.

(** What is seen, what is asked, what is left. *)
Example C72_nonvacuous :
  let o := demo_opts starts_a (λ _, false) (Ok (" Y" +:+ newline)) in
  let r := main_run o (Ok tt) false (ADelete false ["a*"]) staged_sys in
  tidy_storage (wanted o ["a*"] staged_sys) home_storage staged_sys ∧ wanted o ["a*"] staged_sys "a" ∧
  oc_screen (rn_out r) = [Printed "The following sandboxes will be deleted:";
                          Printed "  running a (1 entries, 0 ignored)"; Asked;
                          Printed "Deleted sandbox: a"; Printed "1 sandboxes deleted"] ∧
  s_fs (rn_sys r) !! lock_of home_storage "a" = None ∧ is_Some (s_fs (rn_sys r) !! lock_of home_storage "b").
Proof.
  cbv zeta. split; [|split; [apply staged_a|split; [|split]]].
  - apply staged_tidy; [reflexivity|reflexivity|]. apply staged_wanted. reflexivity.
  - vm_compute. reflexivity.
  - vm_compute. reflexivity.
  - vm_compute. eexists. reflexivity.
Qed.
Example C71_nonvacuous :
  let o := demo_opts starts_a (λ _, false) (Ok "") in
  let r := main_run o (Ok tt) true (ADelete true ["a*"]) staged_sys in
  tidy_storage (wanted o ["a*"] staged_sys) home_storage staged_sys ∧ apart (wanted o ["a*"] staged_sys) ∧
  oc_exit (rn_out r) = 0%N ∧
  ∃ obj, oc_object (rn_out r) = Some obj ∧ obj !! "status" = Some (JStr "success") ∧
    obj !! "deleted" = Some (JArr [JStr "a"]) ∧ obj !! "errors" = Some (JArr []) ∧
    ∃ obj', oc_object (rn_out (main_run o (Ok tt) true (AConfig (Some ["nonsense"])) staged_sys)) = Some obj' ∧
      obj' !! "status" = Some (JStr "error") ∧ obj' !! "error" = Some (JStr "failed").
Proof.
  cbv zeta. split; [|split; [apply staged_apart|split]].
  - apply staged_tidy; [reflexivity|reflexivity|]. apply staged_wanted. reflexivity.
  - vm_compute. reflexivity.
  - eexists. split; [vm_compute; reflexivity|]. split; [vm_compute; reflexivity|]. split; [vm_compute; reflexivity|].
    split; [vm_compute; reflexivity|]. eexists. split; [vm_compute; reflexivity|].
    split; [vm_compute; reflexivity|vm_compute; reflexivity].
Qed.

(** In full (1): whoever is asked has the names on the screen. False with --json, which asks all the same. *)
Definition C72_shown_full : Prop := ∀ o json patterns s t,
  (∀ l, e_ord (o_env o) l ≡ₚ l) → tidy_storage (wanted o patterns s) (o_storage o) s →
  let r := main_run o (Ok tt) json (ADelete false patterns) s in
  t ∈ rn_sys r :: rn_trace r →
  calm (wanted o patterns s) (o_storage o) s t ∨
  ∀ name, wanted o patterns s name → shown_before_asking (wanted o patterns s) o s (oc_screen (rn_out r)) name.
Theorem C72_shown_refuted : ¬ C72_shown_full.
Proof.
  intros H. set (o := demo_opts starts_a (λ _, false) (Ok "y")).
  set (r := main_run o (Ok tt) true (ADelete false ["a*"]) staged_sys).
  assert (wanted o ["a*"] staged_sys "a") as Ha by apply staged_a.
  assert (tidy_storage (wanted o ["a*"] staged_sys) home_storage staged_sys) as Ht.
  { apply staged_tidy; [reflexivity|reflexivity|]. apply staged_wanted. reflexivity. }
  pose proof (H o true ["a*"] staged_sys (rn_sys r) (λ l, Permutation_refl _) Ht (elem_of_list_here _ _)) as K.
  fold r in K. clear H Ht. change (o_storage o) with home_storage in K.
  assert (s_fs (rn_sys r) !! lock_of home_storage "a" = None) as E1 by (vm_compute; reflexivity).
  assert (s_fs staged_sys !! lock_of home_storage "a" ≠ None) as E2 by (vm_compute; discriminate).
  assert (oc_screen (rn_out r) = [Asked]) as E3 by (vm_compute; reflexivity).
  clearbody r. destruct K as [(_ & _ & K)|K].
  - destruct (K (lock_of home_storage "a")) as [K1|[(name & n & _ & _ & _ & K1 & _)|(name & _ & K1 & _)]].
    + congruence.
    + congruence.
    + unfold lock_of, pid_of in K1. apply app_inj_tail in K1 as [_ K1]. by apply lock_not_pid in K1.
  - destruct (K "a" Ha) as (pre & post & st & n & i & E & Hin & _). rewrite E3 in E.
    destruct pre as [|x pre]; [by apply elem_of_nil in Hin|]. injection E as _ E. by destruct pre.
Qed.
Print Assumptions C72_shown_refuted.
(** In full (2): without a yes no file goes away. False: the pid file of a sandbox whose process has been
    suspended (SIGSTOP, state T) does. *)
Definition C72_untouched_full : Prop := ∀ o json patterns s t answer q,
  (∀ l, e_ord (o_env o) l ≡ₚ l) → tidy_storage (wanted o patterns s) (o_storage o) s →
  o_answer o = Ok answer → ¬ says_yes answer →
  let r := main_run o (Ok tt) json (ADelete false patterns) s in
  t ∈ rn_sys r :: rn_trace r → is_Some (s_fs s !! q) → is_Some (s_fs t !! q).
Definition suspended_sys : sys :=
  Sys (s_fs staged_sys)
    (<[4242%N := Proc [7%N; 0%N] 7 true "sandbox" "T" "sandbox"]> (s_procs staged_sys)) (s_mounts staged_sys).
Theorem C72_untouched_refuted : ¬ C72_untouched_full.
Proof.
  intros H. set (o := demo_opts starts_a (λ _, false) (Ok "n")).
  set (r := main_run o (Ok tt) false (ADelete false ["a*"]) suspended_sys).
  assert (tidy_storage (wanted o ["a*"] suspended_sys) home_storage suspended_sys) as Ht.
  { apply staged_tidy; [reflexivity|reflexivity|]. apply staged_wanted. reflexivity. }
  assert (¬ says_yes "n") as Hn by (rewrite <-confirms_spec; discriminate).
  pose proof (H o false ["a*"] suspended_sys (rn_sys r) "n" (pid_of home_storage "a") (λ l, Permutation_refl _) Ht eq_refl Hn
    (elem_of_list_here _ _) ltac:(vm_compute; eexists; reflexivity)) as [n K].
  assert (s_fs (rn_sys r) !! pid_of home_storage "a" = None) as E1 by (vm_compute; reflexivity).
  clear H Ht Hn. clearbody r. congruence.
Qed.
Print Assumptions C72_untouched_refuted.

(** In full (1): with --json an object is printed. False: a panic. *)
Definition C71_object_full : Prop := ∀ o a s,
  wf_tree (s_fs s) → is_dir_at (s_fs s) (o_storage o) → pid_files_ok s (o_storage o) →
  is_Some (oc_object (rn_out (main_run o (Ok tt) true a s))).
Theorem C71_object_refuted : ¬ C71_object_full.
Proof.
  intros H. destruct (H (demo_opts (λ _ _, true) (λ _, false) (Ok "")) (AList []) odd_lock_sys) as [obj K].
  - apply wf_treeb_spec. vm_compute. reflexivity.
  - apply dirb_spec. vm_compute. reflexivity.
  - apply pid_files_okb_spec. vm_compute. reflexivity.
  - vm_compute in K. discriminate K.
Qed.
Print Assumptions C71_object_refuted.
(** In full (2): success means that the sandboxes to be deleted are gone. False: an overlay is busy. *)
Definition C71_success_full : Prop := ∀ o patterns s obj name,
  (∀ l, e_ord (o_env o) l ≡ₚ l) → tidy_storage (wanted o patterns s) (o_storage o) s → apart (wanted o patterns s) →
  let r := main_run o (Ok tt) true (ADelete true patterns) s in
  oc_exit (rn_out r) = 0%N → oc_object (rn_out r) = Some obj → obj !! "status" = Some (JStr "success") →
  wanted o patterns s name → deleted (o_storage o) name (s_fs (rn_sys r)).
Theorem C71_success_refuted : ¬ C71_success_full.
Proof.
  intros H. set (o := demo_opts starts_a (λ _, true) (Ok "")).
  set (r := main_run o (Ok tt) true (ADelete true ["a*"]) staged_sys).
  assert (tidy_storage (wanted o ["a*"] staged_sys) home_storage staged_sys) as Ht.
  { apply staged_tidy; [reflexivity|reflexivity|]. apply staged_wanted. reflexivity. }
  assert (∃ obj, oc_object (rn_out r) = Some obj ∧ obj !! "status" = Some (JStr "success")) as (obj & E1 & E2).
  { eexists. split; [vm_compute; reflexivity|vm_compute; reflexivity]. }
  assert (oc_exit (rn_out r) = 0%N) as E0 by (vm_compute; reflexivity).
  pose proof (H o ["a*"] staged_sys obj "a" (λ l, Permutation_refl _) Ht (staged_apart _ _) E0 E1 E2 (staged_a _ _)) as (_ & K & _).
  fold r in K. change (o_storage o) with home_storage in K.
  assert (s_fs (rn_sys r) !! lock_of home_storage "a" ≠ None) as E3 by (vm_compute; discriminate).
  clear H Ht. clearbody r. apply E3. exact K.
Qed.
Print Assumptions C71_success_refuted.
