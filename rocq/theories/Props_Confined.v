(** * C103: starting a sandbox changes nothing outside its own files. *)
From Verif Require Import FSFacts Checkers.
From Verif Require Export OverlaySpec Props_Storage Props_Start Props_Fresh.

(** ** Specification *)
(** Everything outside the directory <storage>/<name> and the files <name>.lock and <name>.pid. *)
Definition outside (storage : path) (name : string) (q : path) : Prop :=
  (¬ ∃ r, q = storage ++ [name] ++ r) ∧ q ≠ storage ++ [name +:+ ".lock"] ∧ q ≠ storage ++ [name +:+ ".pid"].
(** A moment of the run: after one of its system calls, or its end. *)
Definition moment {A : Type} (o : sout A) (t : sys) : Prop := t ∈ so_trace o ∨ t = so_sys o.
Definition C103_full : Prop := ∀ storage name a s t q, wf_tree (s_fs s) → is_dir_at (s_fs s) storage → comp_ok name →
  (∀ m, m ∈ at_mounts a → comp_ok (mh_hash m)) →
  moment (start storage name a s) t → outside storage name q → s_fs t !! q = s_fs s !! q.

Lemma outside_spec (storage : path) (name : string) (q : path) : outside storage name q ↔ ¬ of_sandbox storage name q.
Proof.
  unfold outside, of_sandbox, base_of, lock_of, pid_of. rewrite under_spec. split.
  - intros (A & B & C) [[r ->]|[-> | ->]]; [|done|done]. apply A. exists r. by rewrite <-app_assoc.
  - intros H. split; [|split].
    + intros [r ->]. apply H. left. exists r. by rewrite <-app_assoc.
    + intros ->. apply H. auto.
    + intros ->. apply H. auto.
Qed.

(** ** What every step keeps *)
Section confined.
Context (storage : path) (name : string) (f0 : fs).
Context (Hdir : is_dir_at f0 storage) (Hname : comp_ok name).
Notation base := (base_of storage name).
Notation pidp := (pid_of storage name).
Notation only := (only_touches storage name f0).

Record J (f : fs) : Prop := {
  j_wf : wf_tree f;
  j_only : only f;
  j_own : ∀ y, length y ≤ 2 → not_link f (base ++ y);
  j_pid : not_link f pidp;
}.
Definition mj (m : M unit) : Prop := ∀ f, J f → Forall J (o_trace (m f)) ∧ J (o_fs (m f)).
(** A path of the sandbox, or on the way there. *)
Definition ours (p : path) : Prop := ∃ y, length y ≤ 2 ∧ Forall comp_ok y ∧ p `prefix_of` base ++ y.

Lemma j_dir (f : fs) : J f → is_dir_at f storage.
Proof. intros H. eapply only_storage; [apply H|done]. Qed.
Lemma storage_comps : wf_tree f0 → Forall comp_ok storage.
Proof. intros H. apply (dirpath_comps f0). by apply is_dir_at_dirpath. Qed.
Lemma j_comps (f : fs) (y : path) : J f → Forall comp_ok y → Forall comp_ok (base ++ y).
Proof.
  intros H Hy. unfold base_of. apply Forall_app. split; [|done]. apply Forall_app. split; [|by apply Forall_singleton].
  apply (dirpath_comps f). apply is_dir_at_dirpath; [apply H|by apply j_dir].
Qed.
Lemma prefix_app_case (p a b : path) : p `prefix_of` a ++ b → p `prefix_of` a ∨ ∃ c, p = a ++ c ∧ c `prefix_of` b.
Proof.
  intros [r Hr]. destruct (decide (length p ≤ length a)) as [Hl|Hl].
  - left. exists (drop (length p) a). apply (f_equal (take (length a))) in Hr as H1. rewrite take_app in H1.
    rewrite H1. rewrite take_app_ge by done. f_equal.
    rewrite <-(take_drop (length p) a) in Hr at 1. rewrite <-app_assoc in Hr.
    apply app_inj_1 in Hr as [Hr1 Hr2]; [|rewrite take_length; lia]. 
    rewrite H1. rewrite take_app_ge by done. by rewrite drop_app.
  - right. exists (drop (length a) p). apply (f_equal (take (length a))) in Hr as H1. rewrite take_app in H1. rewrite take_app_le in H1 by lia.
    assert (p = a ++ drop (length a) p) as E by (rewrite H1 at 1; by rewrite take_drop). split; [exact E|].
    exists r. rewrite E in Hr. rewrite <-app_assoc in Hr. by apply app_inv_head in Hr.
Qed.
Lemma prefix_short (c y : path) : c `prefix_of` y → length y ≤ 2 → length c ≤ 2.
Proof. intros [r ->]. rewrite app_length. lia. Qed.
(** Where it is: above the storage directory, a directory that is there; or in the sandbox. *)
Lemma ours_case (f : fs) (p : path) : J f → ours p → is_dir_at f p ∨ ∃ y, length y ≤ 2 ∧ p = base ++ y.
Proof.
  intros H (y & Hl & Hc & Hp). unfold base_of in *. rewrite <-app_assoc in Hp. apply prefix_app_case in Hp as [Hp|(c & -> & Hp)].
  - left. destruct Hp as [r Hr]. destruct (j_dir f H) as (n & Hn & Hk). destruct r as [|x r].
    + rewrite app_nil_r in Hr. rewrite Hr in Hn. by exists n.
    + rewrite Hr in Hn. apply (wf_prefix f p (x :: r) n); [apply H|done|done].
  - destruct c as [|x c]; [left; rewrite app_nil_r; by apply j_dir|]. right. destruct Hp as [r Hr]. injection Hr as -> Hr.
    exists c. split; [apply (prefix_short c y); [by exists r|done]|]. by rewrite <-app_assoc.
Qed.
Lemma ours_straight (f : fs) (p : path) : J f → ours p → straight f p.
Proof.
  intros H Ho. split.
  - destruct Ho as (y & Hl & Hc & r & Hr). pose proof (j_comps f y H Hc) as Hx. rewrite Hr in Hx. by apply Forall_app in Hx as [Hx _].
  - intros q Hq n Hn. assert (ours q) as Hoq.
    { destruct Ho as (y & Hl & Hc & Hr). exists y. split; [done|]. split; [done|]. by etrans. }
    destruct (ours_case f q H Hoq) as [(m & Hm & Hk)|(y & Hl & ->)].
    + rewrite Hn in Hm. injection Hm as ->. by rewrite Hk.
    + by apply (j_own f H y Hl).
Qed.
Lemma ours_init (p : path) (x : string) : ours (p ++ [x]) → ours p.
Proof. intros (y & Hl & Hc & Hp). exists y. split; [done|]. split; [done|]. etrans; [|exact Hp]. by exists [x]. Qed.
Lemma base_app_under (y : path) : under base (base ++ y) = true.
Proof. apply under_app. Qed.

(** Writing one entry of the sandbox. *)
Lemma j_write (f : fs) (p : path) (n : node) : J f → wf_tree (<[p := n]> f) → is_klink (n_kind n) = false →
  of_sandbox storage name p → J (<[p := n]> f).
Proof.
  intros H Hwf Hk Hp. split; [done| | |].
  - intros q Hq. rewrite lookup_insert_ne by (intros ->; done). by apply (j_only f H).
  - intros y Hy m Hm. destruct (decide (base ++ y = p)) as [E|Hne].
    + rewrite E, lookup_insert in Hm. by injection Hm as <-.
    + rewrite lookup_insert_ne in Hm by done. by apply (j_own f H y Hy).
  - intros m Hm. destruct (decide (pidp = p)) as [E|Hne].
    + rewrite E, lookup_insert in Hm. by injection Hm as <-.
    + rewrite lookup_insert_ne in Hm by done. by apply (j_pid f H).
Qed.

Lemma mj_bind (m : M unit) (k : unit → M unit) : mj m → (∀ u, mj (k u)) → mj (bind_ m k).
Proof.
  intros Hm Hk f Hf. destruct (Hm f Hf) as [A B]. unfold bind_. cbv zeta. destruct (o_res (m f)) as [u|e]; cbn [o_trace o_fs].
  - destruct (Hk u _ B) as [C D]. split; [by apply Forall_app|done].
  - done.
Qed.
Lemma mj_or (p : path) (m : M unit) : mj m → mj (or_is_dir p m).
Proof.
  intros Hm f Hf. destruct (Hm f Hf) as [A B]. unfold or_is_dir. cbv zeta. destruct (o_res (m f)); [done|].
  destruct (is_dir (o_fs (m f)) p); done.
Qed.
Lemma mj_sys_mkdir (umask : N) (p : path) : ours p → mj (sys_mkdir umask p).
Proof.
  intros Ho f Hf. pose proof (ours_straight f p Hf Ho) as Hs.
  pose proof (sys_mkdir_wf umask f p (j_wf f Hf) (proj1 Hs)) as W. unfold sys_mkdir in *.
  destruct (lookup_l_nolink f p (straight_nolink f p Hs)) as [E|[e E]]; rewrite E in *; [|split; [constructor|done]].
  destruct (f !! p) as [n|] eqn:Ep; [split; [constructor|done]|]. cbn [emit o_fs o_trace] in *.
  assert (J (<[p:=Node KDir (and_not o777 umask) 0 0 (parent_dev f p) ∅]> f)) as HJ.
  { apply j_write; [done|exact W|done|]. destruct (ours_case f p Hf Ho) as [(m & Hm & _)|(y & _ & ->)]; [congruence|].
    left. apply base_app_under. }
  split; [by apply Forall_singleton|done].
Qed.
Lemma mj_create (umask : N) (rp : list string) : ours (rev rp) → mj (create_dir_all umask rp).
Proof.
  induction rp as [|x rp IH]; intros Ho f Hf; cbn [create_dir_all]; cbv zeta.
  - pose proof (mj_sys_mkdir umask (rev []) Ho f Hf) as H1. pose proof (mj_or (rev []) _ (mj_sys_mkdir umask (rev []) Ho) f Hf) as H2.
    destruct (o_res (sys_mkdir umask (rev []) f)) as [u|[]]; done.
  - pose proof (mj_or (rev (x :: rp)) _ (mj_sys_mkdir umask (rev (x :: rp)) Ho)) as H2.
    destruct (o_res (sys_mkdir umask (rev (x :: rp)) f)) as [u|[]]; try (by apply H2).
    apply (mj_bind _ (λ _, or_is_dir (rev (x :: rp)) (sys_mkdir umask (rev (x :: rp))))); [|intros _; exact H2|exact Hf].
    apply IH. by apply (ours_init (rev rp) x).
Qed.
Lemma mj_chown (y : path) (u g : N) : length y ≤ 2 → Forall comp_ok y → mj (sys_chown (base ++ y) u g).
Proof.
  intros Hl Hc f Hf. assert (ours (base ++ y)) as Ho by (exists y; done). pose proof (ours_straight f _ Hf Ho) as Hs.
  pose proof (sys_chown_wf (base ++ y) u g f (j_wf f Hf)) as W. unfold sys_chown in *.
  destruct (lookup_f f (base ++ y)) as [q|e] eqn:E; [|split; [constructor|done]].
  apply straight_lookup in E as ->; [|done]. destruct (f !! (base ++ y)) as [n|] eqn:En; [|split; [constructor|done]].
  cbn [emit o_fs o_trace] in *.
  assert (J (<[base ++ y := set_owner (set_perm n (chown_perm n)) u g]> f)) as HJ.
  { apply j_write; [done|exact W| |left; apply base_app_under]. pose proof (j_own f Hf y Hl n En) as Hk. by destruct n. }
  split; [by apply Forall_singleton|done].
Qed.
Lemma mj_mkdir (umask : N) (y : path) (u g : N) : length y ≤ 2 → Forall comp_ok y → mj (mkdir umask (base ++ y) u g).
Proof.
  intros Hl Hc. assert (ours (base ++ y)) as Ho by (exists y; done).
  assert (mj (λ f, create_dir_all umask (rev (base ++ y)) f)) as H1 by (apply mj_create; by rewrite rev_involutive).
  pose proof (mj_chown y u g Hl Hc) as H2. intros f Hf. destruct (exists_ f (base ++ y)) eqn:Ex.
  - rewrite (mkdir_existing umask (base ++ y) u g f Ex). destruct (lstat f (base ++ y)) as [m|e]; [|split; [constructor|done]].
    destruct (negb (is_kdir (n_kind m))); [split; [constructor|done]|].
    destruct (negb (N.eqb (n_uid m) u && N.eqb (n_gid m) g)); [split; [constructor|done]|]. by apply H2.
  - rewrite (mkdir_missing umask (base ++ y) u g f Ex). by apply mj_bind.
Qed.
Lemma mj_text (umask : N) (p : path) (text : string) : of_sandbox storage name p →
  (∀ f, J f → ∀ q, lookup_f f p = Ok q → q = p ∧ dirpath f p ∧ p ≠ []) → mj (write_text umask p text).
Proof.
  intros Hp Hl f Hf.
  destruct (write_text_eq umask p "" f (j_wf f Hf) (Hl f Hf)) as ((W1 & _) & _).
  destruct (write_text_eq umask p text f (j_wf f Hf) (Hl f Hf)) as ((W2 & _) & _).
  unfold write_text in *. destruct (lookup_f f p) as [q|e] eqn:E; [|split; [constructor|done]].
  destruct (Hl f Hf q E) as (-> & _). cbv zeta in *.
  destruct (f !! p) as [n|] eqn:En.
  - destruct (n_kind n) eqn:Ek; try (split; [constructor|done]). cbn [o_fs o_trace] in *.
    assert (J (<[p:=with_text n ""]> f)) as J1 by (by apply j_write).
    assert (J (<[p:=with_text n text]> f)) as J2 by (by apply j_write).
    split; [|exact J2]. apply Forall_cons; split; [exact J1|]. apply Forall_singleton. exact J2.
  - cbn [o_fs o_trace] in *.
    match type of W1 with wf_tree ?g => assert (J g) as J1 by (by apply j_write) end.
    match type of W2 with wf_tree ?g => assert (J g) as J2 by (by apply j_write) end.
    split; [|exact J2]. apply Forall_cons; split; [exact J1|]. apply Forall_singleton. exact J2.
Qed.
Lemma j_lookup_settings (f : fs) : J f → ∀ q, lookup_f f (base ++ ["data"; "settings.json"]) = Ok q →
  q = base ++ ["data"; "settings.json"] ∧ dirpath f (base ++ ["data"; "settings.json"]) ∧ base ++ ["data"; "settings.json"] ≠ [].
Proof.
  intros Hf q Hq. assert (Forall comp_ok ["data"; "settings.json"]) as Hc
    by (repeat constructor; apply comp_okb_spec; vm_compute; reflexivity).
  assert (ours (base ++ ["data"; "settings.json"])) as Ho by (exists ["data"; "settings.json"]; split; [cbn; lia|done]).
  pose proof (ours_straight f _ Hf Ho) as Hs.
  assert (base ++ ["data"; "settings.json"] = (base ++ ["data"]) ++ ["settings.json"]) as E by (by rewrite <-app_assoc).
  rewrite E in *. pose proof (straight_init _ _ _ Hs) as Hs'.
  apply Forall_cons in Hc as [_ Hc]. apply Forall_singleton in Hc.
  destruct (lookup_straight f (base ++ ["data"]) q "settings.json") as [-> Hd];
    [right; split; [by apply straight_nolink|by apply Hs']|apply Hf|done|by apply Hs|done|].
  split; [done|]. split; [apply dirpath_snoc; [apply Hf|done|done]|]. by destruct (base ++ ["data"]).
Qed.
Lemma j_lookup_pid (f : fs) : J f → ∀ q, lookup_f f pidp = Ok q → q = pidp ∧ dirpath f pidp ∧ pidp ≠ [].
Proof.
  intros Hf q Hq. assert (dirpath f pidp) as Hd by (apply dirpath_snoc; [apply Hf|by apply j_dir|apply pid_comp_ok; apply Hname]).
  rewrite (lookup_f_dirpath _ _ Hd) in Hq; [|apply Hf]. injection Hq as <-. split; [done|]. split; [done|]. unfold pid_of. by destruct storage.
Qed.

(** ** The run *)
Notation P := (λ s : sys, J (s_fs s)).
Lemma st_j (m : M unit) : mj m → striple P P (lift_fs m) (λ _, P).
Proof. intros H. apply st_fs. intros s Hs. destruct (H _ Hs) as [A B]. split; [exact A|]. split; [exact B|]. intros _ _. exact B. Qed.
Lemma st_mount (fails : option err) (p : path) : striple P P (sys_mount_overlay fails p) (λ _, P).
Proof.
  intros s Hs. unfold sys_mount_overlay. destruct fails as [e|]; [split; [constructor|done]|].
  destruct (lookup_f (s_fs s) p) as [q|e]; [|split; [constructor|done]].
  destruct (s_fs s !! q) as [n|]; [|split; [constructor|done]]. destruct (is_kdir (n_kind n)); [|split; [constructor|done]].
  cbv zeta. cbn [so_trace so_sys so_res]. split; [by apply Forall_singleton|]. done.
Qed.
Context (a : attempt) (Hh : ∀ m, m ∈ at_mounts a → comp_ok (mh_hash m)).
Lemma st_layers : striple P P (mount_layers storage name a) (λ _, P).
Proof.
  assert (comp_ok "data" ∧ comp_ok "work" ∧ comp_ok "upper" ∧ comp_ok "overlay") as (C1 & C2 & C3 & C4)
    by (repeat split; apply comp_okb_spec; vm_compute; reflexivity).
  unfold mount_layers. apply (st_bind _ _ _ _ (λ _, P)); [apply st_j|intros []].
  { rewrite <-(app_nil_r base). apply mj_mkdir; [cbn; lia|constructor]. }
  apply (st_bind _ _ _ _ (λ _, P)); [apply st_j|intros []].
  { apply mj_mkdir; [cbn; lia|repeat (apply Forall_cons; split; [done|]); done]. }
  apply (st_bind _ _ _ _ (λ _, P)); [|intros []; apply st_j, mj_text; [left; apply base_app_under|apply j_lookup_settings]].
  apply st_for. intros m Hm. pose proof (Hh m Hm) as Hmh. unfold mount_one.
  apply (st_bind _ _ _ _ (λ _, P)); [apply (st_get _ _ _ (λ _, P)); done|intros nd].
  apply (st_bind _ _ _ _ (λ _, P)); [apply st_j, mj_mkdir; [cbn; lia|repeat (apply Forall_cons; split; [done|]); done]|intros []].
  apply (st_bind _ _ _ _ (λ _, P)); [apply st_j, mj_mkdir; [cbn; lia|repeat (apply Forall_cons; split; [done|]); done]|intros []].
  apply (st_bind _ _ _ _ (λ _, P)); [apply st_j, mj_mkdir; [cbn; lia|repeat (apply Forall_cons; split; [done|]); done]|intros []].
  apply st_mount.
Qed.
Lemma st_gone : striple P P (process_gone a) (λ _, P).
Proof. intros s Hs. unfold process_gone. cbn [so_trace so_sys so_res]. split; [by apply Forall_singleton|]. done. Qed.
Lemma st_clone : striple P P (sys_clone a) (λ _, P).
Proof. intros s Hs. unfold sys_clone. cbn [so_trace so_sys so_res]. split; [by apply Forall_singleton|]. done. Qed.
Lemma st_process : striple P P (start_process storage name a) (λ _, P).
Proof.
  unfold start_process. apply (st_bind _ _ _ _ (λ _, P)); [apply st_clone|intros []].
  apply (st_bind _ _ _ _ (λ _, P)).
  - assert (striple P P (lift_fs (write_text (at_umask a) pidp (show_pid (at_pid a)))) (λ _, P)) as Hw
      by (apply st_j, mj_text; [by right; right|apply j_lookup_pid]).
    revert Hw. generalize (lift_fs (write_text (at_umask a) pidp (show_pid (at_pid a)))) as w. intros w Hw.
    intros s Hs. destruct (Hw s Hs) as (A & B & C). cbv zeta.
    destruct (so_res (w s)) as [u|e] eqn:Er; [split; [exact A|]; split; [exact B|]; intros _ _; exact B|].
    destruct (st_gone (so_sys (w s)) B) as (D & E & _). cbn [so_trace so_sys so_res]. split; [by apply Forall_app|]. done.
  - intros []. destruct (child_writes (steps_of_child name a)) as [b|]; [|apply st_gone].
    destruct (N.eqb b 0); [apply st_ret; done|]. apply (st_bind _ _ _ _ (λ _, P)); [apply st_gone|intros []]. by apply st_throw.
Qed.
End confined.

(** ** C103 *)
(** The sandbox's directory, the first two levels of what is in it, the pid file and the lock file are no symbolic links. *)
Definition no_planted_links (storage : path) (name : string) (s : sys) : Prop :=
  ∀ y, length y ≤ 2 → not_link (s_fs s) (base_of storage name ++ y).
Theorem C103_confined_partial (storage : path) (name : string) (a : attempt) (s t : sys) (q : path) :
  tidy storage name s → no_planted_links storage name s → (∀ m, m ∈ at_mounts a → comp_ok (mh_hash m)) →
  moment (start storage name a s) t → outside storage name q → s_fs t !! q = s_fs s !! q.
Proof.
  intros Ht Hl Hh Hm Hq. apply outside_spec in Hq.
  pose proof (td_storage _ _ _ Ht) as Hst. pose proof (td_name _ _ _ Ht) as Hnm. pose proof (tidy_inv _ _ _ Ht) as HI.
  enough (Forall (λ t, only_touches storage name (s_fs s) (s_fs t)) (so_trace (start storage name a s)) ∧
    only_touches storage name (s_fs s) (s_fs (so_sys (start storage name a s)))) as [A B].
  { destruct Hm as [Hm| ->]; [|by apply B]. rewrite Forall_forall in A. by apply (A t Hm). }
  assert (∀ f, few_new storage name (s_fs s) f → wf_tree f → only_touches storage name (s_fs s) f → J storage name (s_fs s) f) as Hfew.
  { intros f Hn Hw Ho. split; [done|done| |].
    - intros y Hy n Hf. destruct (Hn _ _ Hf) as [H|[->|[_ ->]]]; [by apply (Hl y Hy)|done|done].
    - intros n Hf. destruct (Hn _ _ Hf) as [H|[->|[_ ->]]]; [by apply (td_pid _ _ _ Ht)|done|done]. }
  assert (striple (λ t, J storage name (s_fs s) (s_fs t)) (Inv storage name (s_fs s)) (start storage name a)
    (λ _ t, J storage name (s_fs s) (s_fs t))) as H.
  { unfold start. apply (st_bind _ _ _ _ (λ _ t, Inv storage name (s_fs s) t)).
    - pose proof (op_get_or_stopped storage name (s_fs s) Hst Hnm (at_umask a)) as Hg.
      intros u Hu. destruct (Hg u Hu) as (A & B & C). split; [|split; [by destruct B; apply Hfew|intros sb E; by destruct (C sb E)]].
      eapply Forall_impl; [exact A|]. intros v [X Y Z]. by apply Hfew.
    - intros sb. cbn beta. apply (st_weaken _ _ (λ t, J storage name (s_fs s) (s_fs t)) _ _ (λ _ t, J storage name (s_fs s) (s_fs t))).
      + destruct (sb_pid sb) as [z|].
        * destruct (at_compatible a); [by apply st_ret|by apply st_throw].
        * eapply st_bind; [by apply st_layers|intros []]. by apply st_process.
      + intros u [[X Y Z] _ _ _ _]. by apply Hfew.
      + done. }
  destruct (H s HI) as (A & B & _). split; [|apply B]. eapply Forall_impl; [exact A|]. intros u Hu. apply Hu.
Qed.
Print Assumptions C103_confined_partial.

(** The data directory belongs to the user, who has put a link in the place of settings.json. *)
Definition planted : sys :=
  Sys (list_to_map [([], mnt_dir_node 493 0 0 1); (["home"], mnt_dir_node 493 0 0 1); (["etc"], mnt_dir_node 493 0 0 1); (["etc"; "shadow"], Node (KFile "root:x") 384 0 0 1 ∅);
                    (["st"], mnt_dir_node 493 1000 1000 1); (["st"; "a"], mnt_dir_node 493 1000 1000 1); (["st"; "a"; "data"], mnt_dir_node 493 1000 1000 1);
                    (["st"; "a"; "data"; "settings.json"], Node (KLink "/etc/shadow") 511 1000 1000 1 ∅)])
    (list_to_map [(1%N, Proc [0%N] 0 true "systemd" "S" "systemd")]) [].
Theorem C103_refuted : ¬ C103_full.
Proof.
  intros H. specialize (H ["st"] "a" (an_attempt [StepOk] 4242) planted (so_sys (start ["st"] "a" (an_attempt [StepOk] 4242) planted)) ["etc"; "shadow"]).
  assert (s_fs (so_sys (start ["st"] "a" (an_attempt [StepOk] 4242) planted)) !! ["etc"; "shadow"] = Some (Node (KFile "{}") 384 0 0 1 ∅)) as E by (vm_compute; reflexivity).
  rewrite E in H. assert (s_fs planted !! ["etc"; "shadow"] = Some (Node (KFile "root:x") 384 0 0 1 ∅)) as E' by (vm_compute; reflexivity).
  rewrite E' in H. discriminate H.
  - apply wf_treeb_spec. vm_compute. reflexivity.
  - eexists. split; vm_compute; reflexivity.
  - apply comp_okb_spec. vm_compute. reflexivity.
  - apply attempt_hashes.
  - right. reflexivity.
  - clear. split; [|split; discriminate]. intros [r Hr]. discriminate Hr.
Qed.
Print Assumptions C103_refuted.

(** The links that matter need not be in the sandbox's directory: the storage directory is the user's, too. A link <name>.lock or <name>.pid to
    a name that does not exist has root create that file (here: /etc/nologin, which shuts everybody out). *)
Definition C103_sandbox_links : Prop := ∀ storage name a s t q, wf_tree (s_fs s) → is_dir_at (s_fs s) storage → comp_ok name →
  no_planted_links storage name s → (∀ m, m ∈ at_mounts a → comp_ok (mh_hash m)) →
  moment (start storage name a s) t → outside storage name q → s_fs t !! q = s_fs s !! q.
Definition planted_beside (file : string) : sys :=
  Sys (list_to_map [([], mnt_dir_node 493 0 0 1); (["home"], mnt_dir_node 493 0 0 1); (["etc"], mnt_dir_node 493 0 0 1);
                    (["st"], mnt_dir_node 493 1000 1000 1); (["st"; file], Node (KLink "/etc/nologin") 511 1000 1000 1 ∅)])
    (list_to_map [(1%N, Proc [0%N] 0 true "systemd" "S" "systemd")]) [].
Lemma beside_refutes (file text : string) : (file = "a.lock" ∧ text = "") ∨ (file = "a.pid" ∧ text = "4242") →
  C103_sandbox_links → False.
Proof.
  intros Hf H.
  specialize (H ["st"] "a" (an_attempt [StepOk] 4242) (planted_beside file) (so_sys (start ["st"] "a" (an_attempt [StepOk] 4242) (planted_beside file))) ["etc"; "nologin"]).
  assert (option_map n_kind (s_fs (so_sys (start ["st"] "a" (an_attempt [StepOk] 4242) (planted_beside file))) !! ["etc"; "nologin"]) = Some (KFile text)) as E
    by (destruct Hf as [[-> ->]|[-> ->]]; vm_compute; reflexivity).
  assert (s_fs (planted_beside file) !! ["etc"; "nologin"] = None) as E' by (destruct Hf as [[-> ->]|[-> ->]]; vm_compute; reflexivity).
  rewrite E' in H. rewrite H in E; [discriminate E|..]; clear H E E'.
  - apply wf_treeb_spec. destruct Hf as [[-> ->]|[-> ->]]; vm_compute; reflexivity.
  - destruct Hf as [[-> ->]|[-> ->]]; eexists; split; vm_compute; reflexivity.
  - apply comp_okb_spec. vm_compute. reflexivity.
  - intros y _. assert (under ["st"; "a"] (["st"; "a"] ++ y) = true) as Hu by apply (under_app ["st"; "a"] y). revert Hu.
    apply (no_links (s_fs (planted_beside file)) ["st"; "a"]). destruct Hf as [[-> ->]|[-> ->]]; vm_compute; reflexivity.
  - apply attempt_hashes.
  - right. reflexivity.
  - split; [|split; discriminate]. intros [r Hr]. discriminate Hr.
Qed.
Theorem C103_lock_link_refuted : ¬ C103_sandbox_links.
Proof. intros H. apply (beside_refutes "a.lock" ""); [by left|exact H]. Qed.
Print Assumptions C103_lock_link_refuted.
Theorem C103_pid_link_refuted : ¬ C103_sandbox_links.
Proof. intros H. apply (beside_refutes "a.pid" "4242"); [by right|exact H]. Qed.
Print Assumptions C103_pid_link_refuted.

(** Two file systems, a user who has nothing in place yet: the start succeeds and writes what it should. *)
Example C103_nonvacuous :
  tidy ["st"] "a" two_users ∧ no_planted_links ["st"] "a" two_users ∧ (∀ m, m ∈ at_mounts bobs_start → comp_ok (mh_hash m)) ∧
  so_res (start ["st"] "a" bobs_start two_users) = Ok tt ∧
  (∃ n, s_fs (so_sys (start ["st"] "a" bobs_start two_users)) !! ["st"; "a"; "data"; "settings.json"] = Some n ∧ n_kind n = KFile "{}") ∧
  outside ["st"] "a" ["home"; "alice"; "diary"] ∧ ¬ outside ["st"] "a" ["st"; "a"; "upper"].
Proof.
  split; [apply tidyb_spec; vm_compute; reflexivity|]. split.
  { intros y _. apply (no_links (s_fs two_users) ["st"; "a"]); [vm_compute; reflexivity|]. apply (under_app ["st"; "a"] y). }
  split.
  { intros m Hm. cbn [bobs_start at_mounts two_mounts fmap list_fmap] in Hm.
    repeat (apply elem_of_cons in Hm as [-> |Hm]; [apply comp_okb_spec; vm_compute; reflexivity|]). by apply elem_of_nil in Hm. }
  split; [vm_compute; reflexivity|]. split; [eexists; split; vm_compute; reflexivity|].
  split; [clear; split; [|split; discriminate]; intros [r Hr]; discriminate Hr|]. intros [H _]. apply H. by exists ["upper"].
Qed.
