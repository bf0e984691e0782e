(** * C76: only `accept` changes the host.
    Model: Output.v ([dispatch], [main_run]): every action of the program except running a command in a
    sandbox (that is confined by the kernel, not by this program). *)
From Verif Require Export Props_Reject Props_Delete.

(** Specification. The sandboxes a command is about. *)
Definition concerned (o : opts) (a : action) (s : sys) (name : string) : Prop :=
  match a with
  | AStop true _ => stop_listed (e_glob (o_env o)) ["*"] (s_fs s) (o_storage o) name
  | AStop false (Some patterns) => stop_listed (e_glob (o_env o)) patterns (s_fs s) (o_storage o) name
  | AStop false None | AReject _ => name = o_name o
  | ADelete _ patterns => wanted o patterns s name
  | _ => False
  end.
Definition is_accept (a : action) : Prop := ∃ patterns, a = AAccept patterns.
(** Commands that only look. *)
Definition looks (a : action) : Prop :=
  match a with
  | AConfig _ | ASync | AList _ | AStatus _ | ADiff _ => True
  | _ => False
  end.
(** What the command finds: nothing special for a command that only looks; otherwise the storage directory as
    the program makes it (Props_List.v), and for `reject` the tree of staged entries. *)
Definition found_ok (o : opts) (a : action) (s : sys) : Prop :=
  match a with
  | AReject _ => wf_tree (s_fs s) ∧ is_dir_at (s_fs s) (upper_of (o_storage o) (o_name o))
  | AStop _ _ | ADelete _ _ => tidy_storage (concerned o a s) (o_storage o) s
  | _ => True
  end.

(** *** Commands that only look *)
Definition silent {A : Type} (m : P_ A) : Prop := ∀ s, po_trace (m s) = [] ∧ po_sys (m s) = s.
Lemma silent_get {A : Type} (r : sys → res A) : silent (pget r).
Proof. done. Qed.
Lemma silent_ret {A : Type} (a : A) : silent (pret a).
Proof. done. Qed.
Lemma silent_say (v : event) : silent (say v).
Proof. done. Qed.
Lemma silent_bind {A B : Type} (m : P_ A) (k : A → P_ B) : silent m → (∀ a, silent (k a)) → silent (pbind m k).
Proof.
  intros Hm Hk s. unfold pbind. destruct (Hm s) as [E1 E2]. destruct (m s) as [tr s1 ev r].
  cbn [po_trace po_sys po_res po_ev] in *. subst tr s1. destruct r as [a|e]; cbn [po_trace po_sys]; [|done].
  destruct (Hk a s) as [-> ->]. done.
Qed.
Lemma silent_for {A : Type} (l : list A) (f : A → P_ unit) : (∀ x, silent (f x)) → silent (pfor l f).
Proof. intros H. induction l as [|x l IH]; [apply silent_ret|]. cbn [pfor]. apply silent_bind; [apply H|]. intros _. exact IH. Qed.
Ltac silent := repeat first
  [ apply silent_get | apply silent_ret | apply silent_say | apply silent_bind | apply silent_for
  | match goal with |- silent (match ?x with _ => _ end) => destruct x end
  | match goal with |- ∀ _, _ => intros ? end
  | match goal with |- silent (let '(_, _) := ?x in _) => destruct x end ].
Lemma looks_silent (o : opts) (json : bool) (a : action) : looks a → silent (dispatch o json a).
Proof.
  destruct a as [keys| |patterns|all pats|patterns|patterns|patterns|patterns|yes patterns]; intros H;
    try (by destruct H); cbn [dispatch].
  - unfold config_cmd. silent.
  - unfold sync_cmd. silent.
  - unfold list_cmd. silent.
  - unfold status_cmd. silent.
  - unfold diff_cmd. destruct json; [done|]. silent.
Qed.
(** Looking changes nothing: whatever the machine looks like, and whatever the outcome. *)
Theorem C76_looking_changes_nothing (o : opts) (pre : res unit) (json : bool) (a : action) (s : sys) :
  looks a → let r := main_run o pre json a s in ∀ t, t ∈ rn_sys r :: rn_trace r → t = s.
Proof.
  intros H. cbv zeta. unfold main_run. destruct pre as [u|e].
  - destruct (looks_silent o json a H s) as [E1 E2]. revert E1 E2. generalize (dispatch o json a s) as p.
    intros p E1 E2. cbn [rn_sys rn_trace]. rewrite E1, E2. intros t Ht. by apply elem_of_list_singleton in Ht.
  - cbn [rn_sys rn_trace]. intros t Ht. by apply elem_of_list_singleton in Ht.
Qed.
Print Assumptions C76_looking_changes_nothing.

(** *** The others *)
Lemma only_of_refl (W : string → Prop) (storage : path) (s : sys) : only_of W storage s s.
Proof. split; [done|]. split; [done|]. split; [intros k p H1 H2; congruence|]. by split. Qed.
Lemma reject_only (o : opts) (patterns : list string) (s : sys) : env_ok (o_env o) →
  wf_tree (s_fs s) → is_dir_at (s_fs s) (upper_of (o_storage o) (o_name o)) →
  ∀ t, t ∈ states (reject_cmd o patterns s) → only_of (λ n, n = o_name o) (o_storage o) s t.
Proof.
  intros He Hwf Hub t Ht.
  assert (∃ f, t = set_fs s f ∧ f ∈ AcceptMain.states (reject (o_env o) (upper_of (o_storage o) (o_name o)) (o_ignored o) patterns (s_fs s))) as (f & -> & Hf).
  { revert Ht. unfold reject_cmd, states, AcceptMain.states, lift_fs, pbind, plift, pget, sget, say.
    cbn [po_res po_trace po_sys po_ev so_res so_trace so_sys].
    generalize (reject (o_env o) (upper_of (o_storage o) (o_name o)) (o_ignored o) patterns (s_fs s)) as r.
    intros r. assert (∀ x, x ∈ set_fs s (o_fs r) :: (set_fs s <$> o_trace r) → ∃ f, x = set_fs s f ∧ f ∈ o_trace r ++ [o_fs r]) as Hx.
    { intros x Hx. apply elem_of_cons in Hx as [-> |Hx]; [exists (o_fs r); split; [done|apply elem_of_app; right; left]|].
      apply elem_of_list_fmap in Hx as (f & -> & Hf). exists f. split; [done|apply elem_of_app; by left]. }
    destruct (o_res r) as [n|e]; cbn [po_res po_trace po_sys po_ev]; [|intros Ht; apply Hx, Ht].
    destruct (o_sync o) as [u|e]; cbn [po_res po_trace po_sys po_ev]; rewrite ?app_nil_r; intros Ht; apply Hx, Ht. }
  split; [|split; [done|]; split; [intros k p H1 H2; cbn in H2; congruence|]; by split].
  intros q Hq. cbn [set_fs s_fs].
  apply (C08_reject_never_touches_host (o_env o) (s_fs s) (upper_of (o_storage o) (o_name o)) (o_ignored o) patterns f q);
    [done..|]. intros a b r ->. apply (Hq (o_name o) eq_refl). left. unfold upper_of. rewrite <-app_assoc. apply under_app.
Qed.
Lemma delete_only (o : opts) (yes : bool) (patterns : list string) (s : sys) : (∀ l, e_ord (o_env o) l ≡ₚ l) →
  tidy_storage (wanted o patterns s) (o_storage o) s →
  ∀ t, t ∈ states (delete_cmd o yes patterns s) → only_of (wanted o patterns s) (o_storage o) s t.
Proof.
  intros Hord Hs. rewrite delete_cmd_shape.
  pose proof (delete_names_spec o patterns s Hs) as HN. cbv zeta in HN.
  revert Hs HN. set (W := wanted o patterns s). clearbody W. generalize (delete_names o patterns) as N.
  intros N Hs [HN1 HN2].
  match goal with |- context [delete_shape N ?C ?L ?z s] =>
    pose proof (delete_cases N C L z s) as Hcase; revert Hcase; generalize (delete_shape N C L z s) as p end.
  intros p Hcase.
  assert (∀ l t, Forall (still W (o_storage o) [] s) l → t ∈ l → only_of W (o_storage o) s t) as Hstill.
  { intros l t H Ht. rewrite Forall_forall in H. apply (H t Ht). }
  assert (∀ run stopped, so_res (N s) = Ok (run, stopped) →
    Forall (still W (o_storage o) (run ++ stopped) s) (states (confirm o yes (marked run stopped) (so_sys (N s))))) as HC.
  { intros run stopped E. destruct (HN2 _ _ E) as (Hnd & Hst & _). destruct yes.
    - rewrite confirm_true. apply Forall_singleton. exact Hst.
    - apply confirm_spec; [done| |done]. intros y Hy. rewrite <-marked_fst. by apply elem_of_list_fmap_1. }
  pose proof HN1 as HN0. apply Forall_cons in HN1 as [_ HN1]. unfold states.
  destruct Hcase as [e E1 ->|E1 ->|run stopped c e E1 E2 E3 E4 ->|run stopped c E1 E2 E3 E4 ->|
    run stopped c d x evs r E1 E2 E3 E4 E5 -> E6]; cbn [po_trace po_sys po_ev]; intros t Ht.
  - by eapply Hstill.
  - by eapply Hstill.
  - specialize (HC _ _ E1). rewrite E3 in HC. apply still_nil, Forall_cons in HC as [C1 C2].
    eapply Hstill; [|exact Ht]. constructor; [done|]. by apply Forall_app.
  - specialize (HC _ _ E1). rewrite E3 in HC. apply still_nil, Forall_cons in HC as [C1 C2].
    eapply Hstill; [|exact Ht]. constructor; [done|]. by apply Forall_app.
  - destruct (HN2 _ _ E1) as (Hnd & _ & _). specialize (HC _ _ E1). rewrite E3 in HC.
    pose proof HC as HC0. apply still_nil, Forall_cons in HC0 as [_ C2]. apply Forall_cons in HC as [C1 _].
    rewrite app_assoc in Ht.
    assert (t ∈ so_trace (N s) ++ po_trace c ∨ t ∈ po_sys d :: po_trace d) as [Hin|Ht'].
    { apply elem_of_cons in Ht as [-> |Ht]; [right; left|]. apply elem_of_app in Ht as [Ht|Ht]; [by left|by right; right]. }
    { eapply Hstill; [|exact Hin]. by apply Forall_app. }
    destruct (delete_loop_each o (run ++ stopped) (po_sys c)) as (L1 & L2 & _). rewrite E5 in L1, L2.
    rewrite L1, L2 in Ht'.
    pose proof (delete_each_progress W (o_umask o) (o_ord o) (o_busy o) (e_ord (o_env o)) (o_storage o) s Hord _ _ Hnd
      (sl_progress _ _ _ _ _ C1)) as Hp.
    rewrite Forall_forall in Hp. apply (Hp t Ht').
Qed.
Lemma stop_one_only (umask : N) (ord : list N → list N) (busy : path → bool) (storage : path) (name : string) (s : sys) :
  tidy_storage (λ n, n = name) storage s →
  ∀ t, t ∈ so_sys (stop_action umask ord busy storage name s) :: so_trace (stop_action umask ord busy storage name s) →
  only_of (λ n, n = name) storage s t.
Proof.
  intros Hs t Ht.
  assert (progress (λ n, n = name) storage [name] s s) as Hp.
  { apply progress_start; [done|]. intros n Hn. by apply elem_of_list_singleton in Hn. }
  pose proof (progress_all (λ n, n = name) storage name [] s s _ (not_elem_of_nil _) Hp
    (stop_action_step umask ord busy storage name s (ts_names _ _ _ Hs name eq_refl))) as Hall.
  rewrite Forall_forall in Hall. apply (Hall t Ht).
Qed.
Lemma only_of_storage (W : string → Prop) (storage : path) (s t : sys) (q : path) :
  only_of W storage s t → under storage q = false → s_fs t !! q = s_fs s !! q.
Proof.
  intros [H _] Hq. apply H. intros name _ Hof.
  assert (under storage q = true) as E; [|by rewrite E in Hq].
  destruct Hof as [Hu|[-> | ->]].
  - apply under_spec in Hu as [z ->]. unfold base_of. rewrite <-app_assoc. apply under_app.
  - apply under_app.
  - apply under_app.
Qed.

(** At every moment of any command except `accept`, only the files, processes and mounts of the sandboxes the
    command is about differ from what they were; in particular nothing outside the storage directory does. *)
Theorem C76_only_accept_changes_the_host_partial (o : opts) (pre : res unit) (json : bool) (a : action) (s : sys) :
  ¬ is_accept a → env_ok (o_env o) → found_ok o a s →
  let r := main_run o pre json a s in
  ∀ t, t ∈ rn_sys r :: rn_trace r →
    only_of (concerned o a s) (o_storage o) s t ∧
    ∀ q, under (o_storage o) q = false → s_fs t !! q = s_fs s !! q.
Proof.
  intros Ha He Hf. cbv zeta. intros t Ht.
  enough (only_of (concerned o a s) (o_storage o) s t) as H.
  { split; [exact H|]. intros q Hq. by eapply only_of_storage. }
  destruct pre as [u|e]; cbn [main_run rn_sys rn_trace] in Ht.
  2:{ apply elem_of_list_singleton in Ht as ->. apply only_of_refl. }
  assert (looks a → only_of (concerned o a s) (o_storage o) s t) as Hlook.
  { intros Hl. destruct (looks_silent o json a Hl s) as [E1 E2]. rewrite E1, E2 in Ht.
    apply elem_of_list_singleton in Ht as ->. apply only_of_refl. }
  destruct a as [keys| |patterns|all pats|patterns|patterns|patterns|patterns|yes patterns]; try exact (Hlook I);
    clear Hlook; cbn [dispatch] in Ht.
  - destruct all; [|destruct pats as [pats|]]; cbn [plift po_sys po_trace stop_all_of] in Ht.
    + by eapply C61_stop_only_matching_partial.
    + by eapply C61_stop_only_matching_partial.
    + by eapply stop_one_only.
  - destruct Hf as [Hwf Hub]. by eapply reject_only.
  - destruct Ha. by exists patterns.
  - by eapply delete_only.
Qed.
Print Assumptions C76_only_accept_changes_the_host_partial.

(** ** What does not hold, and examples *)
(** In full: for every name that passes validation and whatever the storage directory holds. *)
Definition C76_full : Prop := ∀ o json a s t q,
  ¬ is_accept a → env_ok (o_env o) → wf_tree (s_fs s) → is_dir_at (s_fs s) (o_storage o) →
  validate_name (o_name o) = Ok tt → s_mounts s = [] →
  t ∈ rn_sys (main_run o (Ok tt) json a s) :: rn_trace (main_run o (Ok tt) json a s) →
  under (o_storage o) q = false → s_fs t !! q = s_fs s !! q.
(** `sandbox --name .. delete --yes` deletes the directory above the storage directory (see C45). *)
Definition dots_opts : opts :=
  Opts 18 same_order (λ _, false) (Env (λ _ _, true) (λ l, l) (λ _ _, "uuid") ["home"] 18) home_storage ".." false
    (Ok "") (λ _ _, "") (Ok tt) (λ _, "failed") demo_config [].
Theorem C76_refuted : ¬ C76_full.
Proof.
  intros H.
  assert (¬ is_accept (ADelete true [])) as Ha by (intros [l E]; discriminate E).
  pose proof (H dots_opts false (ADelete true []) (Sys home_fs ∅ []) _ ["home"; "letter"] Ha (λ l, reflexivity l)
    ltac:(apply wf_treeb_spec; vm_compute; reflexivity) ltac:(apply dirb_spec; vm_compute; reflexivity)
    eq_refl eq_refl (elem_of_list_here _ _) eq_refl) as K.
  revert K. set (x := s_fs (rn_sys _) !! _). assert (x = None) as -> by (vm_compute; reflexivity).
  intros K. vm_compute in K. discriminate K.
Qed.
Print Assumptions C76_refuted.

(** `stop` of a running sandbox and `reject` in one with a staged file: both do something, and meet the
    hypotheses. *)
Lemma staged_upper : is_dir_at (s_fs staged_sys) (upper_of home_storage "a").
Proof. apply dirb_spec. vm_compute. reflexivity. Qed.
Example C76_nonvacuous :
  let o := demo_opts starts_a (λ _, false) (Ok "") in
  let o2 := demo_opts String.eqb (λ _, false) (Ok "") in
  found_ok o (AStop false None) staged_sys ∧
  s_fs (rn_sys (main_run o (Ok tt) false (AStop false None) staged_sys)) !! pid_of home_storage "a" = None ∧
  is_Some (s_fs staged_sys !! pid_of home_storage "a") ∧
  found_ok o2 (AReject ["/new"]) staged_sys ∧
  oc_screen (rn_out (main_run o2 (Ok tt) false (AReject ["/new"]) staged_sys)) = [Printed "Rejected 1 changes"].
Proof.
  cbv zeta. split; [|split; [|split; [|split]]].
  - apply staged_tidy; [reflexivity|reflexivity|]. intros n Hn. exact Hn.
  - vm_compute. reflexivity.
  - vm_compute. eexists. reflexivity.
  - split; [|exact staged_upper]. apply wf_treeb_spec. vm_compute. reflexivity.
  - vm_compute. reflexivity.
Qed.
