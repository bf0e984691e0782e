(** * C91, C92, C93: starting a sandbox. *)
From Verif Require Export Props_Stop Start.
From Verif Require Import FSFacts Checkers Props_Storage.

(** ** Where a start takes place *)
(** None of the places a start writes to is a symbolic link. *)
Definition own_places (b p : path) : Prop :=
  p = b ++ ["overlay"] ∨ (∃ x, p = b ++ ["overlay"; x]) ∨ p = b ++ ["data"] ∨ p = b ++ ["data"; "settings.json"].
Record ready (storage : path) (name : string) (s : sys) : Prop := {
  rd_tidy : tidy storage name s;
  rd_straight : ∀ p, own_places (base_of storage name) p → not_link (s_fs s) p;
}.
(** No two overlays of the sandbox are mounted at the same place: the overlay at overlay/H writes to upper/H
    (mount_overlays.rs:41-100), so no two overlays write to the same directory. *)
Definition one_each (s : sys) (b : path) : Prop := NoDup (filter (λ p, under b p = true) (mt_at <$> s_mounts s)).

(** ** Facts about the steps *)
Definition gentle (f f' : fs) : Prop :=
  wf_tree f' ∧ (∀ q n, f !! q = Some n → ∃ n', f' !! q = Some n' ∧ (n_kind n = KDir → n_kind n' = KDir)) ∧
  (∀ q, not_link f q → not_link f' q).
Lemma gentle_refl (f : fs) : wf_tree f → gentle f f.
Proof. intros H. split; [done|]. split; [|done]. intros q n Hq. by exists n. Qed.
Lemma ready_gentle (storage : path) (name : string) (s : sys) (f : fs) : ready storage name s → gentle (s_fs s) f →
  ready storage name (set_fs s f).
Proof.
  intros [[H1 H2 H3 H4 H5 H6 H7] H8] (G1 & G2 & G3). split; [split|]; cbn [set_fs s_fs].
  - exact G1.
  - destruct H2 as (n & Hn & Hk). destruct (G2 _ _ Hn) as (n' & Hn' & Hk'). exists n'. auto.
  - exact H3.
  - by apply G3.
  - by apply G3.
  - by apply G3.
  - intros m Hm Hu. destruct (H7 m Hm Hu) as ([n Hn] & B & C). split; [|done]. destruct (G2 _ _ Hn) as (n' & Hn' & _). by exists n'.
  - intros p Hp. by apply G3, H8.
Qed.
Lemma adds_gentle (f f' : fs) : wf_tree f' → adds_dirs f f' → gentle f f'.
Proof.
  intros Hwf [A B]. split; [done|]. split; [intros q n Hq; exists n; auto|].
  intros q Hq n Hn. destruct (f !! q) as [m|] eqn:E; [|by rewrite (B q n Hn E)]. rewrite (A q m E) in Hn. injection Hn as <-. by apply Hq.
Qed.
Lemma sys_mkdir_wf (umask : N) (f : fs) (p : path) : wf_tree f → Forall comp_ok p → wf_tree (o_fs (sys_mkdir umask p f)).
Proof.
  intros Hwf Hp. destruct (o_res (sys_mkdir umask p f)) as [u|e] eqn:E.
  - destruct (mkdir_emits umask f p u Hwf Hp E) as ((W & _) & _). exact W.
  - destruct (sys_mkdir_err umask f p e E) as [-> _]. exact Hwf.
Qed.
Lemma or_is_dir_fs (p : path) (m : M unit) (f : fs) : o_fs (or_is_dir p m f) = o_fs (m f).
Proof. unfold or_is_dir. cbv zeta. destruct (o_res (m f)); [done|]. by destruct (is_dir _ p). Qed.
Lemma create_dir_all_wf (umask : N) (rp : path) (f : fs) : wf_tree f → Forall comp_ok rp → wf_tree (o_fs (create_dir_all umask rp f)).
Proof.
  intros Hwf. induction rp as [|x rp IH]; intros Hc.
  - cbn [create_dir_all]. cbv zeta.
    assert (wf_tree (o_fs (or_is_dir (rev []) (sys_mkdir umask (rev [])) f))) as W by (rewrite or_is_dir_fs; by apply sys_mkdir_wf).
    destruct (o_res (sys_mkdir umask (rev []) f)) as [u|e]; [exact W|]. destruct e; try exact W. by apply sys_mkdir_wf.
  - assert (Forall comp_ok (rev (x :: rp))) as Hp by (by apply Forall_rev).
    assert (wf_tree (o_fs (or_is_dir (rev (x :: rp)) (sys_mkdir umask (rev (x :: rp))) f))) as W by (rewrite or_is_dir_fs; by apply sys_mkdir_wf).
    apply Forall_cons in Hc as [Hx Hc]. specialize (IH Hc).
    cbn [create_dir_all]. cbv zeta. destruct (o_res (sys_mkdir umask (rev (x :: rp)) f)) as [u|e]; [exact W|].
    destruct e; try exact W. unfold bind_. cbv zeta. destruct (o_res (create_dir_all umask rp f)); cbn [o_fs]; [|exact IH].
    rewrite or_is_dir_fs. by apply sys_mkdir_wf.
Qed.
Lemma sys_chown_wf (p : path) (u g : N) (f : fs) : wf_tree f → wf_tree (o_fs (sys_chown p u g f)).
Proof.
  intros Hwf. unfold sys_chown. destruct (lookup_f f p) as [q|]; [|done]. destruct (f !! q) as [n|] eqn:E; [|done].
  cbn [emit o_fs]. eapply wf_update; [done|exact E|by destruct n|]. simpl. apply chown_perm_lt. by eapply wf_perm.
Qed.
Lemma bind_wf {A B : Type} (m : M A) (k : A → M B) (f : fs) : wf_tree (o_fs (m f)) →
  (∀ a g, wf_tree g → wf_tree (o_fs (k a g))) → wf_tree (o_fs (bind_ m k f)).
Proof. intros H1 H2. unfold bind_. cbv zeta. destruct (o_res (m f)); [|exact H1]. cbn [o_fs]. by apply H2. Qed.
Lemma mkdir_wf (umask : N) (p : path) (uid gid : N) (f : fs) : wf_tree f → Forall comp_ok p → wf_tree (o_fs (mkdir umask p uid gid f)).
Proof.
  intros Hwf Hp. destruct (exists_ f p) eqn:Ex.
  - rewrite (mkdir_existing umask p uid gid f Ex). destruct (lstat f p) as [n|e]; [|done].
    destruct (negb _); [done|]. destruct (negb _); [done|]. by apply sys_chown_wf.
  - unfold mkdir. rewrite Ex. apply bind_wf; [by apply create_dir_all_wf, Forall_rev|]. intros [] g Hg. by apply sys_chown_wf.
Qed.
Lemma mkdir_gentle (umask : N) (p : path) (uid gid : N) (f : fs) : wf_tree f → Forall comp_ok p → gentle f (o_fs (mkdir umask p uid gid f)).
Proof. intros Hwf Hp. apply adds_gentle; [by apply mkdir_wf|]. by destruct (mkdir_safe umask p uid gid f Hwf Hp) as (_ & A & _). Qed.

(** A path that leads nowhere else than it says. *)
Lemma lookup_straight (f : fs) (p q : path) (x : string) : is_dir_at f p ∨ (nolink f p ∧ not_link f p) → wf_tree f →
  comp_ok x → not_link f (p ++ [x]) → lookup_f f (p ++ [x]) = Ok q → q = p ++ [x] ∧ is_dir_at f p.
Proof.
  intros Hp Hwf Hx Hl Hq.
  assert (nolink f (p ++ [x])) as Hn.
  { destruct Hp as [Hp|[Hp Hp']]; [by apply dirpath_nolink, dirpath_snoc|].
    intros r c t E. destruct (path_snoc_case t) as [-> |(t' & y & ->)].
    - apply app_inj_tail in E as [-> ->]. done.
    - change (r ++ c :: t' ++ [y]) with (r ++ (c :: t') ++ [y]) in E. rewrite app_assoc in E. apply app_inj_tail in E as [-> ->].
      by apply (Hp r c t'). }
  destruct (lookup_f_nolink f (p ++ [x]) Hn Hl) as [E|[e E]]; [|congruence]. rewrite E in Hq. injection Hq as <-. split; [done|].
  assert (is_Some (f !! [])) as Hroot by (destruct (wf_root f Hwf) as (r & Hr & _); by exists r).
  destruct (walk_ok_parent _ _ _ _ _ _ Hwf Hroot E) as [[m Hm]|(q' & c & E' & Hd)].
  - by apply (wf_prefix f p [x] m).
  - by apply app_inj_tail in E' as [-> _].
Qed.
Lemma write_text_eq (umask : N) (p : path) (text : string) (f : fs) : wf_tree f →
  (∀ q, lookup_f f p = Ok q → q = p ∧ dirpath f p ∧ p ≠ []) →
  gentle f (o_fs (write_text umask p text f)) ∧
  (∀ q, q ≠ p → o_fs (write_text umask p text f) !! q = f !! q) ∧
  (∀ u, o_res (write_text umask p text f) = Ok u → ∃ n, o_fs (write_text umask p text f) !! p = Some n ∧ n_kind n = KFile text).
Proof.
  intros Hwf Hl. unfold write_text. destruct (lookup_f f p) as [q|e] eqn:E.
  2:{ cbn [fail_ o_fs o_res]. split; [by apply gentle_refl|]. done. }
  destruct (Hl q eq_refl) as (-> & Hd & Hne). clear Hl. cbv zeta.
  assert (∀ n c, (f !! p = Some n ∧ ¬ n_kind n = KDir) ∨ f !! p = None → (n_perm n < 4096)%N →
    gentle f (<[p := with_text n c]> f)) as Hg.
  { intros n c Hn Hperm. split; [|split].
    - apply wf_insert; [done|done|exact Hperm|]. right. split; [done|]. destruct Hn as [[Hn Hk]|Hn].
      + apply below_nil. intros s Hs. destruct (f !! (p ++ s)) as [m|] eqn:Em; [|done].
        destruct (wf_prefix f p s m Hwf Em Hs) as (d & Hd' & Hk'). congruence.
      + by apply wf_none_below.
    - intros q m Hq. destruct (decide (q = p)) as [-> |Hqp].
      + eexists. rewrite lookup_insert. split; [done|]. intros Hk. destruct Hn as [[Hn Hk']|Hn]; congruence.
      + exists m. rewrite lookup_insert_ne by done. done.
    - intros q Hq m Hm. destruct (decide (q = p)) as [-> |Hqp].
      + rewrite lookup_insert in Hm. injection Hm as <-. done.
      + rewrite lookup_insert_ne in Hm by done. by apply Hq. }
  destruct (f !! p) as [n|] eqn:En.
  - destruct (n_kind n) eqn:Ek; cbn [fail_ o_fs o_res]; try (split; [by apply gentle_refl|]; split; [done|]; intros u Hu; discriminate Hu).
    split; [apply Hg; [left; split; [done|congruence]|by eapply wf_perm]|]. split; [intros q Hq; by rewrite lookup_insert_ne|].
    intros _ _. eexists. rewrite lookup_insert. done.
  - cbn [o_fs o_res]. split; [apply Hg; [by right|by apply and_not_lt]|]. split; [intros q Hq; by rewrite lookup_insert_ne|].
    intros _ _. eexists. rewrite lookup_insert. done.
Qed.

Lemma dirpath_comps (f : fs) (p : path) : dirpath f p → Forall comp_ok p.
Proof. intros H. apply Forall_forall. intros x Hx. apply elem_of_list_split in Hx as (l1 & l2 & ->). by apply (H l1 x l2). Qed.
Lemma gentle_trans (f g h : fs) : gentle f g → gentle g h → gentle f h.
Proof.
  intros (A1 & A2 & A3) (B1 & B2 & B3). split; [done|]. split; [|auto]. intros q n Hq.
  destruct (A2 q n Hq) as (n1 & H1 & K1). destruct (B2 q n1 H1) as (n2 & H2 & K2). exists n2. auto.
Qed.
Lemma gentle_dir (f g : fs) (p : path) : gentle f g → is_dir_at f p → is_dir_at g p.
Proof. intros (_ & H & _) (n & Hn & Hk). destruct (H p n Hn) as (n' & Hn' & Hk'). exists n'. auto. Qed.

Section Steps.
Context (storage : path) (name : string).
Notation T := (ready storage name).
Notation base := (base_of storage name).
Notation pidp := (pid_of storage name).

(** One step: readiness is kept, files only appear or are overwritten; what it does to mounts and processes is given. *)
Definition step_to (s t : sys) : Prop := T t ∧ gentle (s_fs s) (s_fs t).
Lemma step_refl (s : sys) : T s → step_to s s.
Proof. intros H. split; [done|]. apply gentle_refl. apply H. Qed.
Lemma step_trans (s t u : sys) : step_to s t → step_to t u → step_to s u.
Proof. intros [_ A] [B C]. split; [done|]. by eapply gentle_trans. Qed.
Lemma base_comps (s : sys) : T s → Forall comp_ok base.
Proof.
  intros [H _]. apply Forall_app. split; [|apply Forall_singleton; apply H].
  apply (dirpath_comps (s_fs s)). apply is_dir_at_dirpath; apply H.
Qed.
Lemma base_nolink (s : sys) : T s → nolink (s_fs s) base.
Proof. intros [H _]. apply dirpath_nolink, dirpath_snoc; apply H. Qed.
Lemma procs_step (s : sys) (ps : gmap N proc) : T s → step_to s (Sys (s_fs s) ps (s_mounts s)).
Proof.
  intros [[H1 H2 H3 H4 H5 H6 H7] H8]. split; [split; [split|]; done|]. by apply gentle_refl.
Qed.
Lemma mkdir_step (umask : N) (p : path) (uid gid : N) (s : sys) : T s → Forall comp_ok p →
  step_to s (so_sys (lift_fs (mkdir umask p uid gid) s)).
Proof.
  intros Hs Hp. unfold lift_fs. cbn [so_sys]. assert (gentle (s_fs s) (o_fs (mkdir umask p uid gid (s_fs s)))) as G
    by (apply mkdir_gentle; [apply Hs|done]). split; [by apply ready_gentle|exact G].
Qed.
Lemma lift_mounts {A : Type} (m : M A) (s : sys) :
  s_mounts (so_sys (lift_fs m s)) = s_mounts s ∧ s_procs (so_sys (lift_fs m s)) = s_procs s.
Proof. done. Qed.
Lemma mkdir_dir (umask : N) (uid gid : N) (s : sys) (u : unit) : T s →
  so_res (lift_fs (mkdir umask base uid gid) s) = Ok u → is_dir_at (s_fs (so_sys (lift_fs (mkdir umask base uid gid) s))) base.
Proof.
  intros Hs Hok. pose proof (mkdir_step umask base uid gid s Hs (base_comps s Hs)) as [Ht _].
  destruct (mkdir_safe umask base uid gid (s_fs s) ltac:(apply Hs) (base_comps s Hs)) as (_ & _ & H).
  destruct (H u Hok) as (n & Hn & Hk & _). revert Ht Hn. unfold lift_fs. cbn [so_sys set_fs s_fs].
  generalize (o_fs (mkdir umask base uid gid (s_fs s))) as g. intros g Ht Hn.
  assert (wf_tree g ∧ is_dir_at g storage ∧ comp_ok name ∧ not_link g base) as (W1 & W2 & W3 & W4) by (destruct Ht as [[] _]; done).
  assert (dirpath g base) as Hd by (by apply dirpath_snoc).
  rewrite stat_dirpath in Hn; [|exact Hd|exact W4]. destruct (g !! base) as [m|] eqn:E; [|discriminate Hn]. injection Hn as ->. by exists n.
Qed.
Lemma pid_lookup (s : sys) (q : path) : T s → lookup_f (s_fs s) pidp = Ok q → q = pidp ∧ dirpath (s_fs s) pidp ∧ pidp ≠ [].
Proof.
  intros Hs Hq. assert (dirpath (s_fs s) pidp) as Hd.
  { apply dirpath_snoc; [apply Hs|apply Hs|]. apply pid_comp_ok. apply Hs. }
  rewrite (lookup_f_dirpath _ _ Hd) in Hq; [|apply Hs]. injection Hq as <-. split; [done|]. split; [done|]. unfold pid_of. by destruct storage.
Qed.
Lemma settings_lookup (s : sys) (q : path) : T s → lookup_f (s_fs s) (base ++ ["data"; "settings.json"]) = Ok q →
  q = base ++ ["data"; "settings.json"] ∧ dirpath (s_fs s) (base ++ ["data"; "settings.json"]) ∧ base ++ ["data"; "settings.json"] ≠ [].
Proof.
  intros Hs Hq. change (base ++ ["data"; "settings.json"]) with (base ++ ["data"] ++ ["settings.json"]) in *. rewrite app_assoc in *.
  assert (comp_ok "data" ∧ comp_ok "settings.json") as [C1 C2] by (split; apply comp_okb_spec; vm_compute; reflexivity).
  assert (not_link (s_fs s) (base ++ ["data"])) as L1 by (apply Hs; unfold own_places; tauto).
  assert (not_link (s_fs s) ((base ++ ["data"]) ++ ["settings.json"])) as L2.
  { apply Hs. unfold own_places. rewrite <-app_assoc. tauto. }
  assert (nolink (s_fs s) (base ++ ["data"])) as N1.
  { intros r c t E. destruct (path_snoc_case t) as [-> |(t' & y & ->)].
    - apply app_inj_tail in E as [<- <-]. split; [done|apply Hs].
    - change (r ++ c :: t' ++ [y]) with (r ++ (c :: t') ++ [y]) in E. rewrite app_assoc in E. apply app_inj_tail in E as [E _].
      by apply (base_nolink s Hs r c t'). }
  destruct (lookup_straight (s_fs s) (base ++ ["data"]) q "settings.json") as [-> Hd]; [by right|apply Hs|done|done|done|].
  split; [done|]. split; [apply dirpath_snoc; [apply Hs|done|done]|]. by destruct (base ++ ["data"]).
Qed.
Lemma text_step (umask : N) (p : path) (text : string) (s : sys) : T s →
  (∀ q, lookup_f (s_fs s) p = Ok q → q = p ∧ dirpath (s_fs s) p ∧ p ≠ []) →
  step_to s (so_sys (lift_fs (write_text umask p text) s)).
Proof.
  intros Hs Hl. destruct (write_text_eq umask p text (s_fs s) ltac:(apply Hs) Hl) as (G & _). unfold lift_fs. cbn [so_sys].
  split; [by apply ready_gentle|exact G].
Qed.
Lemma overlay_lookup (s : sys) (x : string) (q : path) : T s → comp_ok x → lookup_f (s_fs s) (base ++ ["overlay"; x]) = Ok q →
  q = base ++ ["overlay"; x].
Proof.
  intros Hs Hx Hq. change (base ++ ["overlay"; x]) with (base ++ ["overlay"] ++ [x]) in *. rewrite app_assoc in *.
  assert (comp_ok "overlay") as C1 by (apply comp_okb_spec; vm_compute; reflexivity).
  assert (not_link (s_fs s) (base ++ ["overlay"])) as L1 by (apply Hs; unfold own_places; tauto).
  assert (not_link (s_fs s) ((base ++ ["overlay"]) ++ [x])) as L2.
  { apply Hs. unfold own_places. rewrite <-app_assoc. right. left. by exists x. }
  assert (nolink (s_fs s) (base ++ ["overlay"])) as N1.
  { intros r c t E. destruct (path_snoc_case t) as [-> |(t' & y & ->)].
    - apply app_inj_tail in E as [<- <-]. split; [done|apply Hs].
    - change (r ++ c :: t' ++ [y]) with (r ++ (c :: t') ++ [y]) in E. rewrite app_assoc in E. apply app_inj_tail in E as [E _].
      by apply (base_nolink s Hs r c t'). }
  by destruct (lookup_straight (s_fs s) (base ++ ["overlay"]) q x) as [-> _]; [by right|apply Hs|done|done|done|].
Qed.
Lemma mount_step (fails : option err) (x : string) (s : sys) : T s → comp_ok x →
  let o := sys_mount_overlay fails (base ++ ["overlay"; x]) s in
  step_to s (so_sys o) ∧ s_procs (so_sys o) = s_procs s ∧
  (∀ u, so_res o = Ok u → mt_at <$> s_mounts (so_sys o) = (base ++ ["overlay"; x]) :: (mt_at <$> s_mounts s)).
Proof.
  intros Hs Hx. cbv zeta. unfold sys_mount_overlay. destruct fails as [e|]; [split; [by apply step_refl|done]|].
  destruct (lookup_f (s_fs s) (base ++ ["overlay"; x])) as [q|e] eqn:Eq; [|split; [by apply step_refl|done]].
  rewrite (overlay_lookup s x q Hs Hx Eq). clear Eq q. set (q := base ++ ["overlay"; x]).
  destruct (s_fs s !! q) as [n|] eqn:En; [|split; [by apply step_refl|done]].
  destruct (is_kdir (n_kind n)) eqn:Ek; [|split; [by apply step_refl|done]]. cbn [so_sys so_res s_procs s_mounts s_fs].
  split; [|split; [done|done]]. split; [|apply gentle_refl; apply Hs].
  destruct Hs as [[H1 H2 H3 H4 H5 H6 H7] H8]. split; [split|]; try done.
  intros m Hm Hu. cbn [s_mounts s_fs] in *. apply elem_of_cons in Hm as [-> |Hm]; [|by apply H7].
  cbn [mt_at mt_under]. split; [by exists n|]. split; [by apply is_kdir_true|by eapply wf_perm].
Qed.

Context (a : attempt) (Hh : ∀ m, m ∈ at_mounts a → comp_ok (mh_hash m)).
Lemma layer_comps (s : sys) (kind : string) (m : mount_hash) : T s → comp_ok kind → m ∈ at_mounts a → Forall comp_ok (layer storage name kind m).
Proof. intros Hs Hk Hm. apply Forall_app. split; [by eapply base_comps|]. repeat constructor; try apply Hk; by apply Hh. Qed.
(** What a computation does to a ready machine. *)
Definition does (m : S_ unit) (new : list path) : Prop := ∀ s, T s →
  step_to s (so_sys (m s)) ∧ s_procs (so_sys (m s)) = s_procs s ∧
  (∀ u, so_res (m s) = Ok u → mt_at <$> s_mounts (so_sys (m s)) = new ++ (mt_at <$> s_mounts s)).
Lemma does_bind (m1 m2 : S_ unit) (l1 l2 : list path) : does m1 l1 → does m2 l2 → does (m1 ;~ m2) (l2 ++ l1).
Proof.
  intros H1 H2 s Hs. destruct (H1 s Hs) as (A & B & C). unfold sbind. cbv zeta.
  destruct (so_res (m1 s)) as [[]|e]; cbn [so_sys so_res]; [|split; [done|]; split; [done|]; intros u Hu; discriminate Hu].
  destruct (H2 _ (proj1 A)) as (A2 & B2 & C2). split; [by eapply step_trans|]. split; [congruence|].
  intros u Hu. rewrite (C2 u Hu), (C tt eq_refl). by rewrite app_assoc.
Qed.
Lemma does_get {A : Type} (r : sys → res A) (k : A → S_ unit) (l : list path) : (∀ x, does (k x) l) → does (x <~~ sget r ;~ k x) l.
Proof.
  intros H s Hs. unfold sbind, sget. cbn [so_res so_sys so_trace]. destruct (r s) as [x|e]; cbn [so_sys so_res].
  - by apply H.
  - split; [by apply step_refl|]. split; [done|]. intros u Hu. discriminate Hu.
Qed.
Lemma does_mkdir (umask : N) (p : path) (uid gid : N) : (∀ s, T s → Forall comp_ok p) → does (lift_fs (mkdir umask p uid gid)) [].
Proof. intros Hp s Hs. split; [apply mkdir_step; [done|by eapply Hp]|]. split; [done|]. intros u _. done. Qed.
Lemma does_mount_one (m : mount_hash) : m ∈ at_mounts a → does (mount_one storage name a m) [layer storage name "overlay" m].
Proof.
  intros Hm. assert (comp_ok "work" ∧ comp_ok "upper" ∧ comp_ok "overlay") as (C1 & C2 & C3)
    by (split; [|split]; apply comp_okb_spec; vm_compute; reflexivity).
  unfold mount_one. apply does_get. intros n.
  change [layer storage name "overlay" m] with (((([layer storage name "overlay" m] ++ []) ++ []) ++ []) : list path).
  apply does_bind; [apply does_mkdir; intros s Hs; by apply (layer_comps s)|].
  apply does_bind; [apply does_mkdir; intros s Hs; by apply (layer_comps s)|].
  apply does_bind; [apply does_mkdir; intros s Hs; by apply (layer_comps s)|].
  intros s Hs. apply mount_step; [done|by apply Hh].
Qed.
Lemma does_all (l : list mount_hash) : (∀ m, m ∈ l → m ∈ at_mounts a) →
  does (sfor l (mount_one storage name a)) (reverse (layer storage name "overlay" <$> l)).
Proof.
  induction l as [|m l IH]; intros Hl.
  - cbn [sfor]. intros s Hs. split; [by apply step_refl|]. split; [done|]. done.
  - cbn [sfor]. rewrite fmap_cons, reverse_cons. apply does_bind; [apply does_mount_one, Hl; left|]. apply IH. intros x Hx. apply Hl. by right.
Qed.
Lemma does_layers (s : sys) : T s →
  step_to s (so_sys (mount_layers storage name a s)) ∧ s_procs (so_sys (mount_layers storage name a s)) = s_procs s ∧
  (∀ u, so_res (mount_layers storage name a s) = Ok u →
     mt_at <$> s_mounts (so_sys (mount_layers storage name a s)) = reverse (layer storage name "overlay" <$> at_mounts a) ++ (mt_at <$> s_mounts s) ∧
     is_dir_at (s_fs (so_sys (mount_layers storage name a s))) base).
Proof.
  intros Hs. unfold mount_layers.
  set (m1 := lift_fs (mkdir (at_umask a) base (at_uid a) (at_gid a))).
  set (m2 := (lift_fs (mkdir (at_umask a) (base ++ ["data"]) (at_uid a) (at_gid a)) ;~
    sfor (at_mounts a) (mount_one storage name a) ;~
    lift_fs (write_text (at_umask a) (base ++ ["data"; "settings.json"]) (at_settings a)))).
  assert (does m2 (reverse (layer storage name "overlay" <$> at_mounts a))) as H2.
  { unfold m2. replace (reverse (layer storage name "overlay" <$> at_mounts a)) with
      (([] ++ reverse (layer storage name "overlay" <$> at_mounts a)) ++ []) by (by rewrite app_nil_r).
    apply does_bind; [|apply does_bind; [by apply does_all|]].
    - apply does_mkdir. intros t Ht. apply Forall_app. split; [by eapply base_comps|]. apply Forall_singleton. apply comp_okb_spec. vm_compute. reflexivity.
    - intros t Ht. split; [apply text_step; [done|]; intros q; by apply settings_lookup|]. split; [done|]. intros u _. done. }
  assert (step_to s (so_sys (m1 s))) as S1 by (apply mkdir_step; [done|by eapply base_comps]).
  assert (∀ u, so_res (m1 s) = Ok u → is_dir_at (s_fs (so_sys (m1 s))) base) as D1 by (intros u; by apply mkdir_dir).
  destruct (lift_mounts (mkdir (at_umask a) base (at_uid a) (at_gid a)) s) as [M1 P1]. fold m1 in M1, P1.
  generalize dependent m2. generalize dependent m1. intros m1 S1 D1 M1 P1 m2 H2. unfold sbind. cbv zeta.
  destruct (so_res (m1 s)) as [[]|e]; cbn [so_sys so_res]; [|split; [done|]; split; [done|]; intros u Hu; discriminate Hu].
  destruct (H2 _ (proj1 S1)) as (A2 & B2 & C2). split; [by eapply step_trans|]. split; [congruence|].
  intros u Hu. rewrite (C2 u Hu), M1. split; [done|]. eapply gentle_dir; [apply A2|]. by apply (D1 tt).
Qed.
End Steps.

Section Process.
Context (storage : path) (name : string) (a : attempt).
Notation T := (ready storage name).
Notation base := (base_of storage name).
Notation pidp := (pid_of storage name).
Definition cloned (s : sys) : sys := Sys (s_fs s) (<[at_pid a := at_proc a]> (s_procs s)) (s_mounts s).
Definition ended (s : sys) : sys := Sys (s_fs s) (delete (at_pid a) (s_procs s)) (s_mounts s).
(** The five ways it can go. *)
Lemma start_process_cases (s : sys) :
  let w := lift_fs (write_text (at_umask a) pidp (show_pid (at_pid a))) (cloned s) in
  let o := start_process storage name a s in
  match so_res w with
  | Err e => so_res o = Err e ∧ so_sys o = ended (so_sys w)
  | Ok _ =>
      match child_writes (steps_of_child name a) with
      | Some b => if N.eqb b 0 then so_res o = Ok tt ∧ so_sys o = so_sys w
                  else so_res o = Err (EApp "Failed to setup sandbox") ∧ so_sys o = ended (so_sys w)
      | None => so_res o = Ok tt ∧ so_sys o = ended (so_sys w)
      end
  end.
Proof.
  cbv zeta. unfold start_process, cloned, sys_clone.
  generalize (lift_fs (write_text (at_umask a) pidp (show_pid (at_pid a)))) as W. intros W.
  unfold sbind. cbn [so_res so_sys so_trace]. destruct (W _) as [tr t r]. cbn [so_res so_sys so_trace]. destruct r as [u|e].
  - cbn [so_res so_sys so_trace]. destruct (child_writes (steps_of_child name a)) as [b|]; [|done]. destruct (N.eqb b 0); done.
  - done.
Qed.

(** The pid file says that the process is there. *)
Lemma started_recorded (s : sys) (u : unit) (n : node) : T s → s_fs s !! pidp = Some n → n_kind n = KFile (show_pid (at_pid a)) →
  s_procs s !! at_pid a = Some (at_proc a) → (0 < at_pid a ≤ 2147483647)%N → no_ws (p_comm (at_proc a)) = true →
  no_ws (p_state (at_proc a)) = true → p_state (at_proc a) ∉ [""; "Z"; "T"] →
  recorded_pid s storage name = Some (Z.of_N (at_pid a)).
Proof.
  intros Hs Hn Hk Hp Hr Hc Hst Hz. unfold recorded_pid.
  rewrite (read_pid storage name (s_fs s)); [|apply Hs|apply Hs|apply tidy_inv; apply Hs]. rewrite Hn, Hk, show_utf8.
  rewrite parse_show by lia. cbn [mbind option_bind]. unfold proc_of. destruct (Z.leb_spec (Z.of_N (at_pid a)) 0); [lia|].
  rewrite N2Z.id, Hp. cbn [mbind option_bind].
  assert (p_state (at_proc a) ≠ "" ∧ p_state (at_proc a) ≠ "Z" ∧ p_state (at_proc a) ≠ "T") as (Z1 & Z2 & Z3).
  { split; [|split]; intros E; apply Hz; rewrite E; repeat (try (left; fail); constructor). }
  rewrite (stat_state (at_pid a) (at_proc a) Hc Hst Z1). cbn [mbind option_bind].
  apply String.eqb_neq in Z2, Z3. by rewrite Z2, Z3.
Qed.
End Process.

Lemma own_under (b p : path) : own_places b p → under b p = true.
Proof. intros [-> |[[x ->]|[-> | ->]]]; by apply under_app. Qed.
(** Getting hold of a sandbox that runs leaves its pid file. *)
Lemma running_keeps (storage : path) (name : string) (umask : N) (s : sys) (z : Z) (sb : sandbox) :
  tidy storage name s → is_Some (s_fs s !! base_of storage name) → recorded_pid s storage name = Some z →
  so_res (sandbox_get_or_stopped umask storage name s) = Ok sb →
  s_fs (so_sys (sandbox_get_or_stopped umask storage name s)) !! pid_of storage name = s_fs s !! pid_of storage name.
Proof.
  intros Ht Hb Hz Hok. pose proof (tidy_inv _ _ _ Ht) as HI. revert Hok. unfold sandbox_get_or_stopped, sandbox_get.
  destruct (open_cases storage name (s_fs s) (td_storage _ _ _ Ht) (td_name _ _ _ Ht) umask s HI)
    as [(e & Eo & _)|(tr & s1 & Eo & Hs1 & Ep & Em & Ef & _)].
  { rewrite (sbind_err _ _ _ _ _ _ (sbind_err _ _ _ _ _ _ Eo)). done. }
  assert (s_fs s1 !! pid_of storage name = s_fs s !! pid_of storage name) as Epid.
  { apply Ef. intros E. symmetry in E. by apply lock_ne_pid in E. }
  assert (recorded_pid s1 storage name = Some z) as Hz1.
  { rewrite (recorded_same storage name (s_fs s) (td_storage _ _ _ Ht) (td_name _ _ _ Ht) s s1 HI Hs1 Ep Epid). done. }
  assert (get_running_sandbox_pid storage name s1 = SOut [] s1 (Ok (Some z)) ∨ get_running_sandbox_pid storage name s1 = SOut [] s1 (Ok None)) as Er.
  { unfold get_running_sandbox_pid. destruct (exists_ (s_fs s1) (pid_of storage name)); [left; rewrite Hz1; reflexivity|right; reflexivity]. }
  assert (sget (λ s, Ok (exists_ (s_fs s) (base_of storage name))) s1 = SOut [] s1 (Ok true)) as Ex.
  { unfold sget. rewrite (base_exists storage name (s_fs s) (td_storage _ _ _ Ht) (td_name _ _ _ Ht) s1 Hs1), Ef by apply base_ne_lock.
    by rewrite bool_decide_eq_true_2. }
  revert Eo Ex Er. generalize (lift_fs (sys_open_create umask (lock_of storage name))) as m1.
  generalize (sget (λ s, Ok (exists_ (s_fs s) (base_of storage name)))) as m2. generalize (get_running_sandbox_pid storage name) as m3.
  intros m3 m2 m1 Eo Ex Er _. unfold sbind. rewrite Eo. cbn [so_res so_sys so_trace]. rewrite Ex. cbn [so_res so_sys so_trace negb].
  destruct Er as [Er|Er]; rewrite Er; cbn [so_res so_sys so_trace sret]; exact Epid.
Qed.

Section Start.
Context (storage : path) (name : string) (a : attempt) (Hh : ∀ m, m ∈ at_mounts a → comp_ok (mh_hash m)).
Notation T := (ready storage name).
Notation base := (base_of storage name).
Notation pidp := (pid_of storage name).
(** A new process that comes up: its pid fits, is not used, its /proc entry can be read. *)
Record comes_up (s : sys) : Prop := {
  cu_pid : (0 < at_pid a ≤ 2147483647)%N;
  cu_fresh : s_procs s !! at_pid a = None;
  cu_comm : no_ws (p_comm (at_proc a)) = true;
  cu_state : no_ws (p_state (at_proc a)) = true;
  cu_alive : p_state (at_proc a) ∉ [""; "Z"; "T"];
  cu_steps : StepDies ∉ at_steps a;
}.
Lemma writes_byte (l : list outcome) : StepDies ∉ l → ∃ b, child_writes l = Some b.
Proof.
  induction l as [|x l IH]; intros H; [by eexists|]. apply not_elem_of_cons in H as [H1 H2]. destruct x; cbn [child_writes]; [by apply IH|by eexists|done].
Qed.
Lemma steps_alive : StepDies ∉ at_steps a → ∃ b, child_writes (steps_of_child name a) = Some b.
Proof.
  intros H. apply writes_byte. unfold steps_of_child. rewrite elem_of_app, elem_of_list_singleton. intros [E|E]; [done|].
  unfold sethostname in E. by destruct (Nat.leb _ _).
Qed.

Lemma start_process_spec (s : sys) : T s →
  let o := start_process storage name a s in
  T (so_sys o) ∧ gentle (s_fs s) (s_fs (so_sys o)) ∧ s_mounts (so_sys o) = s_mounts s ∧
  (∀ e, so_res o = Err e → s_procs s !! at_pid a = None → s_procs (so_sys o) = s_procs s) ∧
  (∀ u, so_res o = Ok u → comes_up s → recorded_pid (so_sys o) storage name = Some (Z.of_N (at_pid a))).
Proof.
  intros Hs. cbv zeta. pose proof (start_process_cases storage name a s) as H. cbv zeta in H.
  destruct (procs_step storage name s (<[at_pid a:=at_proc a]> (s_procs s)) Hs) as [Tc Gc]. fold (cloned a s) in Tc.
  pose proof (text_step storage name (at_umask a) pidp (show_pid (at_pid a)) (cloned a s) Tc (λ q, pid_lookup storage name (cloned a s) q Tc)) as [Tw Gw].
  destruct (write_text_eq (at_umask a) pidp (show_pid (at_pid a)) (s_fs (cloned a s)) ltac:(apply Tc) (λ q, pid_lookup storage name (cloned a s) q Tc)) as (_ & _ & Hw).
  assert (∀ u, so_res (lift_fs (write_text (at_umask a) pidp (show_pid (at_pid a))) (cloned a s)) = Ok u →
    ∃ n, s_fs (so_sys (lift_fs (write_text (at_umask a) pidp (show_pid (at_pid a))) (cloned a s))) !! pidp = Some n ∧ n_kind n = KFile (show_pid (at_pid a))) as Hw'
    by exact Hw. clear Hw.
  destruct (lift_mounts (write_text (at_umask a) pidp (show_pid (at_pid a))) (cloned a s)) as [Mw Pw].
  revert H Tw Gw Hw' Mw Pw. generalize (lift_fs (write_text (at_umask a) pidp (show_pid (at_pid a))) (cloned a s)) as w.
  generalize (start_process storage name a s) as o. intros o w H Tw Gw Hw Mw Pw.
  assert (gentle (s_fs s) (s_fs (so_sys w))) as G by exact Gw.
  destruct (procs_step storage name (so_sys w) (delete (at_pid a) (s_procs (so_sys w))) Tw) as [Te Ge]. fold (ended a (so_sys w)) in Te.
  assert (s_procs s !! at_pid a = None → s_procs (ended a (so_sys w)) = s_procs s) as Hend.
  { intros Hf. cbn [ended s_procs]. rewrite Pw. cbn [cloned s_procs]. by rewrite delete_insert. }
  destruct (so_res w) as [[]|e].
  - destruct (child_writes (steps_of_child name a)) as [b|] eqn:Eb.
    + destruct (N.eqb b 0).
      * destruct H as [-> ->]. split; [done|]. split; [done|]. split; [done|]. split; [done|]. intros _ _ [C1 C2 C3 C4 C5 C6].
        destruct (Hw tt eq_refl) as (n & Hn & Hk). eapply (started_recorded storage name a); try done. rewrite Pw. cbn [cloned s_procs]. by rewrite lookup_insert.
      * destruct H as [-> ->]. split; [done|]. split; [done|]. split; [done|]. split; [auto|done].
    + destruct H as [-> ->]. split; [done|]. split; [done|]. split; [done|]. split; [done|].
      intros _ _ C. destruct (steps_alive (cu_steps s C)) as [b Hb]. congruence.
  - destruct H as [-> ->]. split; [done|]. split; [done|]. split; [done|]. split; [auto|done].
Qed.

Lemma ready_get (umask : N) (s s1 : sys) (tr : list sys) (sb : sandbox) : T s →
  sandbox_get_or_stopped umask storage name s = SOut tr s1 (Ok sb) →
  sb = the_sandbox storage name s ∧ T s1 ∧ s_procs s1 = s_procs s ∧ s_mounts s1 = s_mounts s ∧
  (∀ q, under base q = true → s_fs s1 !! q = s_fs s !! q) ∧
  (∀ z, sb_pid sb = Some z → is_Some (s_fs s1 !! base) ∧ recorded_pid s1 storage name = Some z).
Proof.
  intros Hs E. pose proof (rd_tidy _ _ _ Hs) as Ht. pose proof (tidy_inv _ _ _ Ht) as HI.
  pose proof (td_storage _ _ _ Ht) as Hst. pose proof (td_name _ _ _ Ht) as Hnm.
  destruct (get_cases storage name (s_fs s) Hst Hnm umask s HI) as [(e & E' & _)|(tr' & s1' & E' & HI1 & Ep & _ & Hpid & Em & Ef & _)]; rewrite E in E'; [discriminate E'|].
  injection E' as -> -> ->. split; [done|].
  assert (∀ q, under base q = true → s_fs s1' !! q = s_fs s !! q) as Hb.
  { intros q Hq. apply Ef; intros ->; [by rewrite pid_outside in Hq|by rewrite lock_outside in Hq]. }
  assert (T s1') as Ts1.
  { split.
    - split; try apply HI1; [|done]. eapply frame_dir; [exact Hst|apply HI1].
    - intros p Hp n Hn. rewrite Hb in Hn by (by apply own_under). by apply (rd_straight _ _ _ Hs p Hp). }
  split; [done|]. split; [done|]. split; [done|]. split; [done|].
  intros z Hz. unfold the_sandbox in Hz. cbn [sb_pid] in Hz. destruct (bool_decide (is_Some (s_fs s !! base))) eqn:Eb; [|discriminate Hz].
  apply bool_decide_eq_true_1 in Eb. split; [rewrite Hb; [done|apply under_refl]|]. rewrite <-Hz.
  eapply (recorded_same storage name (s_fs s) Hst Hnm); [done|done|done|].
  assert (so_res (sandbox_get_or_stopped umask storage name s) = Ok (the_sandbox storage name s)) as Hok by (by rewrite E).
  pose proof (running_keeps storage name umask s z _ Ht Eb Hz Hok) as Hk. rewrite E in Hk. exact Hk.
Qed.

Lemma start_spec (s : sys) : T s →
  let o := start storage name a s in
  T (so_sys o) ∧
  (∀ e, so_res o = Err e → s_procs s !! at_pid a = None → s_procs (so_sys o) = s_procs s) ∧
  (so_res o = Ok tt →
     (∃ z, recorded_pid s storage name = Some z ∧ is_Some (s_fs s !! base) ∧ s_mounts (so_sys o) = s_mounts s ∧
        is_Some (s_fs (so_sys o) !! base) ∧ recorded_pid (so_sys o) storage name = Some z) ∨
     ((is_Some (s_fs s !! base) → recorded_pid s storage name = None) ∧
      mt_at <$> s_mounts (so_sys o) = reverse (layer storage name "overlay" <$> at_mounts a) ++ (mt_at <$> s_mounts s) ∧
      (comes_up s → is_Some (s_fs (so_sys o) !! base) ∧ ∃ z, recorded_pid (so_sys o) storage name = Some z))).
Proof.
  intros Hs. cbv zeta. unfold start.
  destruct (get_cases storage name (s_fs s) (td_storage _ _ _ (rd_tidy _ _ _ Hs)) (td_name _ _ _ (rd_tidy _ _ _ Hs)) (at_umask a) s (tidy_inv _ _ _ (rd_tidy _ _ _ Hs)))
    as [(e & E & _)|(tr & s1 & E & _)].
  { rewrite (sbind_err _ _ _ _ _ _ E). cbn [so_res so_sys]. split; [done|]. split; [done|]. intros H. discriminate H. }
  destruct (ready_get (at_umask a) s s1 tr _ Hs E) as (_ & T1 & P1 & M1 & B1 & R1).
  rewrite (sbind_ok _ _ _ _ _ _ E). cbn [so_res so_sys].
  destruct (sb_pid (the_sandbox storage name s)) as [z|] eqn:Ez.
  { destruct (R1 z eq_refl) as [Rb Rz]. unfold the_sandbox in Ez. cbn [sb_pid] in Ez.
    destruct (bool_decide (is_Some (s_fs s !! base))) eqn:Eb; [|discriminate Ez]. apply bool_decide_eq_true_1 in Eb.
    destruct (at_compatible a); cbn [sret sthrow so_res so_sys].
    - split; [done|]. split; [done|]. intros _. left. exists z. done.
    - split; [done|]. split; [done|]. intros H. discriminate H. }
  assert (is_Some (s_fs s !! base) → recorded_pid s storage name = None) as Hnone.
  { intros Hb. unfold the_sandbox in Ez. cbn [sb_pid] in Ez. by rewrite bool_decide_eq_true_2 in Ez. }
  clear R1 Ez E. destruct (does_layers storage name a Hh s1 T1) as ([T2 G2] & P2 & M2). revert T2 G2 P2 M2.
  generalize (mount_layers storage name a) as ml. intros ml T2 G2 P2 M2.
  destruct (so_res (ml s1)) as [[]|e] eqn:E2.
  2:{ unfold sbind. rewrite E2. cbn [so_res so_sys]. split; [done|]. split; [intros; congruence|]. intros H. discriminate H. }
  rewrite (sbind_ok_sys _ _ _ _ E2), (sbind_ok_res _ _ _ _ E2). destruct (M2 tt eq_refl) as [M3 D3].
  destruct (start_process_spec (so_sys (ml s1)) T2) as (T4 & G4 & M4 & F4 & R4).
  revert T4 G4 M4 F4 R4. generalize (start_process storage name a (so_sys (ml s1))) as o. intros o T4 G4 M4 F4 R4.
  split; [done|]. split.
  { intros e He Hf. rewrite (F4 e He); congruence. }
  intros Hok. right. split; [done|]. split; [congruence|]. intros [C1 C2 C3 C4 C5 C6].
  destruct (gentle_dir _ _ _ G4 D3) as (n & Hn & _). split; [by exists n|]. eexists. apply (R4 tt Hok). split; try done. congruence.
Qed.
End Start.

Lemma no_links (f : fs) (b : path) : forallb (λ kn : path * node, negb (under b kn.1 && is_klink (n_kind kn.2))) (map_to_list f) = true →
  ∀ p, under b p = true → not_link f p.
Proof.
  intros H p Hp n Hn. rewrite forallb_forall in H.
  assert (In (p, n) (map_to_list f)) as Hi by (apply elem_of_list_In; by apply elem_of_map_to_list).
  specialize (H _ Hi). cbn [fst snd] in H. rewrite Hp in H. cbn [andb] in H. by apply negb_true_iff in H.
Qed.
Lemma ready_check (storage : path) (name : string) (s : sys) : tidyb storage name s = true →
  forallb (λ kn : path * node, negb (under (base_of storage name) kn.1 && is_klink (n_kind kn.2))) (map_to_list (s_fs s)) = true → ready storage name s.
Proof. intros H1 H2. split; [by apply tidyb_spec|]. intros p Hp. apply (no_links _ _ H2). by apply own_under. Qed.

(** ** C91: a start that fails leaves nothing behind *)
Definition C91_full : Prop := ∀ storage name a s e, ready storage name s → (∀ m, m ∈ at_mounts a → comp_ok (mh_hash m)) →
  s_procs s !! at_pid a = None → is_stopped s storage name →
  so_res (start storage name a s) = Err e →
  is_stopped (so_sys (start storage name a s)) storage name ∧ s_procs (so_sys (start storage name a s)) = s_procs s.
Definition fresh_machine : sys :=
  Sys (list_to_map [([], Node KDir 493 0 0 1 ∅); (["home"], Node KDir 493 1000 1000 1 ∅); (["home"; ".sandboxes"], Node KDir 493 1000 1000 1 ∅);
                    (["home"; "letter"], Node (KFile "dear") 420 1000 1000 1 ∅)])
    (list_to_map [(1%N, Proc [0%N] 0 true "systemd" "S" "systemd")]) [].
Definition an_attempt (steps : list outcome) (pid : N) : attempt :=
  Attempt 18 1000 1000 [MH "KRQ" "/"; MH "MFQ" "/home"] (λ _, None) steps pid (Proc [7%N; 0%N] 7 true "sandbox" "S" "sandbox") "{}" true.
Lemma attempt_hashes (steps : list outcome) (pid : N) : ∀ m, m ∈ at_mounts (an_attempt steps pid) → comp_ok (mh_hash m).
Proof.
  intros m Hm. cbn [an_attempt at_mounts] in Hm. repeat (apply elem_of_cons in Hm as [-> |Hm]; [apply comp_okb_spec; vm_compute; reflexivity|]).
  by apply elem_of_nil in Hm.
Qed.
Lemma fresh_ready : ready home_storage "a" fresh_machine.
Proof. apply ready_check; vm_compute; reflexivity. Qed.
Lemma fresh_stopped : is_stopped fresh_machine home_storage "a".
Proof. split; [vm_compute; reflexivity|]. intros m Hm. by apply elem_of_nil in Hm. Qed.
(** When a step of the new process fails, the pid file and every overlay stay. *)
Theorem C91_refuted : ¬ C91_full.
Proof.
  intros H. assert (s_procs fresh_machine !! at_pid (an_attempt [StepErr] 4242) = None) as Hf by (vm_compute; reflexivity).
  assert (so_res (start home_storage "a" (an_attempt [StepErr] 4242) fresh_machine) = Err (EApp "Failed to setup sandbox")) as He by (vm_compute; reflexivity).
  destruct (H home_storage "a" (an_attempt [StepErr] 4242) fresh_machine _ fresh_ready (attempt_hashes _ _) Hf fresh_stopped He) as [[Hp _] _].
  assert (is_Some (s_fs (so_sys (start home_storage "a" (an_attempt [StepErr] 4242) fresh_machine)) !! pid_of home_storage "a")) as [n Hn]
    by (vm_compute; eexists; reflexivity).
  rewrite Hp in Hn. discriminate Hn.
Qed.
Print Assumptions C91_refuted.
(** No process stays, and `sandbox stop` cleans up the rest. Missing: nobody runs it. *)
Theorem C91_failed_start_partial (storage : path) (name : string) (a : attempt) (s : sys) (e : err) :
  ready storage name s → (∀ m, m ∈ at_mounts a → comp_ok (mh_hash m)) → s_procs s !! at_pid a = None →
  so_res (start storage name a s) = Err e →
  s_procs (so_sys (start storage name a s)) = s_procs s ∧
  ∀ umask ord busy, (∀ p, busy p = false) →
    so_res (stop_action umask ord busy storage name (so_sys (start storage name a s))) = Ok tt →
    is_stopped (so_sys (stop_action umask ord busy storage name (so_sys (start storage name a s)))) storage name.
Proof.
  intros Hs Hh Hf He. destruct (start_spec storage name a Hh s Hs) as (T1 & F1 & _). split; [by apply (F1 e)|].
  intros umask ord busy Hb Hok. apply C87_stop_partial; [apply T1|done|done].
Qed.
Print Assumptions C91_failed_start_partial.
Example C91_nonvacuous :
  so_res (start home_storage "a" (an_attempt [StepOk; StepErr] 4242) fresh_machine) = Err (EApp "Failed to setup sandbox") ∧
  length (s_mounts (so_sys (start home_storage "a" (an_attempt [StepOk; StepErr] 4242) fresh_machine))) = 2 ∧
  so_res (stop_action 18 same_order (λ _, false) home_storage "a" (so_sys (start home_storage "a" (an_attempt [StepOk; StepErr] 4242) fresh_machine))) = Ok tt.
Proof. split; [vm_compute; reflexivity|]. split; vm_compute; reflexivity. Qed.

(** ** C92: no two overlays write to the same directory *)
Definition settled (a : attempt) : Prop := (∀ m, m ∈ at_mounts a → comp_ok (mh_hash m)) ∧ NoDup (mh_hash <$> at_mounts a).
Inductive happens (storage : path) (name : string) (s : sys) : sys → Prop :=
  | H_start a : settled a → comes_up a s → happens storage name s (so_sys (start storage name a s))
  | H_stop umask ord busy : (∀ p, busy p = false) → happens storage name s (so_sys (stop_action umask ord busy storage name s))
  (* everything else that goes on; processes come and go *)
  | H_else s' : s_mounts s' = s_mounts s → s_fs s' = s_fs s → happens storage name s s'.
Definition C92_full : Prop := ∀ storage name s t, ready storage name s → nothing_mounted s (base_of storage name) →
  rtc (happens storage name) s t → one_each t (base_of storage name).
Definition after_one : sys := so_sys (start home_storage "a" (an_attempt [StepOk] 4242) fresh_machine).
Definition init_killed : sys := Sys (s_fs after_one) (s_procs fresh_machine) (s_mounts after_one).
Definition after_two : sys := so_sys (start home_storage "a" (an_attempt [StepOk] 4343) init_killed).
Lemma attempt_settled (steps : list outcome) (pid : N) : settled (an_attempt steps pid).
Proof. split; [apply attempt_hashes|]. refine (bool_decide_unpack _ _). vm_compute. exact I. Qed.
Lemma attempt_up (s : sys) (pid : N) : (0 < pid ≤ 2147483647)%N → s_procs s !! pid = None → comes_up (an_attempt [StepOk] pid) s.
Proof.
  intros H1 H2. split; cbn [an_attempt at_pid at_proc at_steps p_comm p_state]; [done|done|vm_compute; reflexivity|vm_compute; reflexivity|..];
    intros Hx; repeat (apply elem_of_cons in Hx as [Hx|Hx]; [discriminate Hx|]); by apply elem_of_nil in Hx.
Qed.
Lemma else_procs (storage : path) (name : string) (s : sys) (ps : gmap N proc) : happens storage name s (Sys (s_fs s) ps (s_mounts s)).
Proof. by apply H_else. Qed.
(** The sandbox's process is killed, the machine's other users do nothing, and the next command starts the sandbox again: on top of
    the overlays that are still mounted. *)
Theorem C92_refuted : ¬ C92_full.
Proof.
  intros H.
  assert (rtc (happens home_storage "a") fresh_machine after_two) as Hr.
  { apply (rtc_l _ _ after_one).
    { refine (H_start _ _ _ (an_attempt [StepOk] 4242) (attempt_settled _ _) (attempt_up _ _ _ _)); [lia|vm_compute; reflexivity]. }
    apply (rtc_l _ _ init_killed); [exact (else_procs home_storage "a" after_one _)|].
    apply (rtc_l _ _ after_two); [|apply rtc_refl].
    refine (H_start _ _ _ (an_attempt [StepOk] 4343) (attempt_settled _ _) (attempt_up _ _ _ _)); [lia|vm_compute; reflexivity]. }
  pose proof (H home_storage "a" fresh_machine after_two fresh_ready (proj2 fresh_stopped) Hr) as Hd.
  assert (filter (λ p, under (base_of home_storage "a") p = true) (mt_at <$> s_mounts after_two) =
    [["home"; ".sandboxes"; "a"; "overlay"; "MFQ"]; ["home"; ".sandboxes"; "a"; "overlay"; "KRQ"];
     ["home"; ".sandboxes"; "a"; "overlay"; "MFQ"]; ["home"; ".sandboxes"; "a"; "overlay"; "KRQ"]]) as E by (vm_compute; reflexivity).
  unfold one_each in Hd. rewrite E in Hd. apply NoDup_cons in Hd as [Hd _]. apply Hd. right. left.
Qed.
Print Assumptions C92_refuted.
(** Orderly use: starts that succeed, stops that succeed, failed starts that are followed by a stop, anything else as long as it
    leaves the sandbox's mounts, its places and its process alone. *)
Inductive orderly (storage : path) (name : string) (s : sys) : sys → Prop :=
  | O_start a : settled a → comes_up a s → so_res (start storage name a s) = Ok tt → orderly storage name s (so_sys (start storage name a s))
  | O_failed a e umask ord busy : settled a → (∀ p, busy p = false) → so_res (start storage name a s) = Err e →
      so_res (stop_action umask ord busy storage name (so_sys (start storage name a s))) = Ok tt →
      orderly storage name s (so_sys (stop_action umask ord busy storage name (so_sys (start storage name a s))))
  | O_stop umask ord busy : (∀ p, busy p = false) → so_res (stop_action umask ord busy storage name s) = Ok tt →
      orderly storage name s (so_sys (stop_action umask ord busy storage name s))
  | O_else s' : s_mounts s' = s_mounts s → ready storage name s' →
      (is_Some (s_fs s !! base_of storage name) → is_Some (s_fs s' !! base_of storage name)) →
      (∀ z, recorded_pid s storage name = Some z → recorded_pid s' storage name = Some z) → orderly storage name s s'.
Definition in_order (storage : path) (name : string) (s : sys) : Prop :=
  ready storage name s ∧
  (nothing_mounted s (base_of storage name) ∨
   one_each s (base_of storage name) ∧ is_Some (s_fs s !! base_of storage name) ∧ ∃ z, recorded_pid s storage name = Some z).
Lemma nothing_filter (s : sys) (b : path) : nothing_mounted s b → filter (λ p, under b p = true) (mt_at <$> s_mounts s) = [].
Proof.
  unfold nothing_mounted. generalize (s_mounts s) as l. induction l as [|m l IH]; intros H; [done|]. rewrite fmap_cons, filter_cons_False.
  - apply IH. intros x Hx. apply H. by right.
  - rewrite (H m ltac:(by left)). discriminate.
Qed.
Lemma ready_stop (storage : path) (name : string) (umask : N) (ord : list N → list N) (busy : path → bool) (s : sys) :
  ready storage name s → so_res (stop_action umask ord busy storage name s) = Ok tt →
  ready storage name (so_sys (stop_action umask ord busy storage name s)).
Proof.
  intros Hs Hok. pose proof (rd_tidy _ _ _ Hs) as Ht. pose proof (tidy_inv _ _ _ Ht) as HI.
  pose proof (td_storage _ _ _ Ht) as Hst. pose proof (td_name _ _ _ Ht) as Hnm.
  assert (Inv storage name (s_fs s) (so_sys (stop_action umask ord busy storage name s))) as HI2.
  { revert Hok. destruct (get_cases storage name (s_fs s) Hst Hnm umask s HI) as [(e & E & _)|(tr & s1 & E & HI1 & _)];
      unfold stop_action; [by rewrite (sbind_err _ _ _ _ _ _ E)|].
    rewrite (sbind_ok _ _ _ _ _ _ E). cbn [so_sys so_res].
    destruct (so_res (sandbox_stop ord (the_sandbox storage name s) s1)) as [[]|er] eqn:E2; cycle 1.
    { unfold sbind. rewrite E2. done. }
    rewrite (sbind_ok_sys _ _ _ _ E2). intros _.
    destruct (op_stop storage name (s_fs s) Hst Hnm ord (the_sandbox storage name s) eq_refl eq_refl s1 HI1) as (_ & _ & Q).
    destruct (Q tt E2) as [Q1 Q2]. clear Q.
    revert Q1 Q2. generalize (so_sys (sandbox_stop ord (the_sandbox storage name s) s1)) as u. intros u Q1 Q2.
    destruct (unmount_procs busy (base_of storage name) u) as (_ & _ & U).
    destruct (op_unmount storage name (s_fs s) Hst busy None u (conj Q1 Q2)) as (_ & _ & V). by destruct (V tt U). }
  revert HI2. generalize (so_sys (stop_action umask ord busy storage name s)) as t. intros t HI2. split.
  - split; try apply HI2; [|done]. eapply frame_dir; [exact Hst|apply HI2].
  - intros p Hp n Hn. destruct HI2 as [[_ _ Hnew] _ _ _ _]. destruct (Hnew p n Hn) as [Ho|[Hk|[_ Hk]]]; [|by rewrite Hk|by rewrite Hk].
    by apply (rd_straight _ _ _ Hs p Hp).
Qed.
Lemma layers_nodup (storage : path) (name : string) (l : list mount_hash) : NoDup (mh_hash <$> l) → NoDup (reverse (layer storage name "overlay" <$> l)).
Proof.
  intros H. rewrite reverse_Permutation.
  assert (layer storage name "overlay" <$> l = (λ x, base_of storage name ++ ["overlay"; x]) <$> (mh_hash <$> l)) as -> by (by rewrite <-list_fmap_compose).
  assert (Inj (=) (=) (λ x, base_of storage name ++ ["overlay"; x])) as Hi by (intros x y E; apply app_inv_head in E; congruence).
  by apply (NoDup_fmap_2 (λ x, base_of storage name ++ ["overlay"; x])).
Qed.
Lemma orderly_step (storage : path) (name : string) (s t : sys) : in_order storage name s → orderly storage name s t → in_order storage name t.
Proof.
  intros [Hs Hc] [a [Hh Hn] Hup Hok|a e umask ord busy [Hh Hn] Hb He Hok|umask ord busy Hb Hok|t' Em Ht Hbase Hrec].
  - destruct (start_spec storage name a Hh s Hs) as (T1 & _ & K). split; [exact T1|].
    destruct (K Hok) as [(z & Rz & Rb & M & Rb' & Rz')|(Hnone & M & Hrec)].
    + unfold nothing_mounted, one_each in *. rewrite M. destruct Hc as [Hc|(Hc & _)]; [by left|right]. split; [done|]. split; [done|]. by exists z.
    + right. split; [|by apply Hrec]. unfold one_each. rewrite M, filter_app. destruct Hc as [Hc|(_ & Hb & z & Hz)]; [|by rewrite (Hnone Hb) in Hz].
      rewrite (nothing_filter s _ Hc), app_nil_r. apply NoDup_filter. by apply layers_nodup.
  - destruct (start_spec storage name a Hh s Hs) as (T1 & _). split; [by apply ready_stop|]. left. apply C87_stop_partial; [apply T1|done|done].
  - split; [by apply ready_stop|]. left. apply C87_stop_partial; [apply Hs|done|done].
  - split; [done|]. unfold nothing_mounted, one_each in *. rewrite Em. destruct Hc as [Hc|(Hc & Hb & z & Hz)]; [by left|right].
    split; [done|]. split; [by apply Hbase|]. exists z. by apply Hrec.
Qed.
Theorem C92_orderly_partial (storage : path) (name : string) (s t : sys) :
  ready storage name s → nothing_mounted s (base_of storage name) → rtc (orderly storage name) s t → one_each t (base_of storage name).
Proof.
  intros Hs Hn Hr. assert (in_order storage name t) as [_ [H|[H _]]].
  { refine (rtc_ind_r (in_order storage name) s _ _ t Hr); [split; [done|by left]|]. intros y z _ Hyz Hy. by eapply orderly_step. }
  - unfold one_each. rewrite (nothing_filter t _ H). constructor.
  - exact H.
Qed.
Print Assumptions C92_orderly_partial.
(** Started, stopped, and started again. *)
Definition stopped_again : sys := so_sys (stop_action 18 same_order (λ _, false) home_storage "a" after_one).
Definition after_again : sys := so_sys (start home_storage "a" (an_attempt [StepOk] 4343) stopped_again).
Example C92_nonvacuous : rtc (orderly home_storage "a") fresh_machine after_again ∧ length (s_mounts after_again) = 2 ∧ s_mounts stopped_again = [].
Proof.
  split; [|split; vm_compute; reflexivity].
  apply (rtc_l _ _ after_one).
  { refine (O_start _ _ _ (an_attempt [StepOk] 4242) (attempt_settled _ _) (attempt_up _ _ _ _) _); [lia|vm_compute; reflexivity|vm_compute; reflexivity]. }
  apply (rtc_l _ _ stopped_again).
  { refine (O_stop _ _ _ 18%N same_order (λ _, false) (λ _, eq_refl) _). vm_compute. reflexivity. }
  apply (rtc_l _ _ after_again); [|apply rtc_refl].
  refine (O_start _ _ _ (an_attempt [StepOk] 4343) (attempt_settled _ _) (attempt_up _ _ _ _) _); [lia|vm_compute; reflexivity|vm_compute; reflexivity].
Qed.

(** ** C93: a sandbox can be started under every name the program accepts *)
(** No step fails but for what the name itself makes fail, and the pid file can be written. *)
Definition nothing_fails (storage : path) (name : string) (a : attempt) (s : sys) : Prop :=
  (∀ x, x ∈ at_steps a → x = StepOk) ∧
  so_res (lift_fs (write_text (at_umask a) (pid_of storage name) (show_pid (at_pid a))) (cloned a s)) = Ok tt.
Definition C93_full : Prop := ∀ storage name a s, validate_name name = Ok tt → comp_ok name → nothing_fails storage name a s →
  so_res (start_process storage name a s) = Ok tt.
Fixpoint repeat_str (n : nat) (c : string) : string := match n with O => "" | S k => c +:+ repeat_str k c end.
(** The names that work are the ones of at most 64 bytes. *)
Theorem C93_names_partial (storage : path) (name : string) (a : attempt) (s : sys) : nothing_fails storage name a s →
  (so_res (start_process storage name a s) = Ok tt ↔ String.length name ≤ 64).
Proof.
  intros [Hn Hw]. pose proof (start_process_cases storage name a s) as H.
  cbv zeta in H. rewrite Hw in H. unfold steps_of_child, sethostname in H. clear Hw. revert H.
  generalize (start_process storage name a s) as o. intros o.
  assert (∀ x, child_writes (at_steps a ++ [x]) = child_writes [x]) as E.
  { intros x. revert Hn. generalize (at_steps a) as l. induction l as [|y l IH]; intros Hn; [done|].
    rewrite (Hn y ltac:(by left)). cbn [app child_writes]. apply IH. intros z Hz. apply Hn. by right. }
  rewrite E. destruct (Nat.leb_spec (String.length name) 64); cbn [child_writes]; intros [Ho _]; split; intros K; [done|done| |lia].
  rewrite Ho in K. discriminate K.
Qed.
Print Assumptions C93_names_partial.
(** A name of 65 letters: the host name cannot be set, which is found out last, when the overlays are mounted. *)
Theorem C93_refuted : ¬ C93_full.
Proof.
  intros H. assert (validate_name (repeat_str 65 "a") = Ok tt) as H1 by (vm_compute; reflexivity).
  assert (comp_ok (repeat_str 65 "a")) as H2 by (apply comp_okb_spec; vm_compute; reflexivity).
  assert (nothing_fails home_storage (repeat_str 65 "a") (an_attempt [StepOk] 4242) fresh_machine) as H3.
  { split; [|vm_compute; reflexivity]. intros x Hx. by apply elem_of_list_singleton in Hx. }
  pose proof (H home_storage (repeat_str 65 "a") (an_attempt [StepOk] 4242) fresh_machine H1 H2 H3) as K.
  apply C93_names_partial in K; [|exact H3]. vm_compute in K. lia.
Qed.
Print Assumptions C93_refuted.
Example C93_nonvacuous :
  nothing_fails home_storage "a" (an_attempt [StepOk] 4242) fresh_machine ∧
  so_res (start home_storage "a" (an_attempt [StepOk] 4242) fresh_machine) = Ok tt ∧
  so_res (start home_storage (repeat_str 65 "a") (an_attempt [StepOk] 4242) fresh_machine) = Err (EApp "Failed to setup sandbox") ∧
  length (s_mounts (so_sys (start home_storage (repeat_str 65 "a") (an_attempt [StepOk] 4242) fresh_machine))) = 2.
Proof.
  split; [split; [|vm_compute; reflexivity]; intros x Hx; by apply elem_of_list_singleton in Hx|].
  split; [vm_compute; reflexivity|]. split; vm_compute; reflexivity.
Qed.
