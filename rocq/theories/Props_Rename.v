(** * C27: renamed directories are accepted correctly *)
From Verif Require Export Rename.

(** ** Specification *)
(** The move a Rename entry stands for. *)
Definition move_of (c : change) : option (path * path) :=
  match c_op c, c_source c with
  | ORename, Some s => Some (d_path s, c_dest c)
  | _, _ => None
  end.
Definition moves (cs : list change) : list (path * path) := omap move_of cs.

(** A directory of the host with the attributes of a staged one. *)
Definition with_attrs (n k : node) : node :=
  Node (n_kind k) (n_perm n) (n_uid n) (n_gid n) (n_dev k) (n_xattr k).

(** A selection of renames together with directories that exist on the host (the parents that
    overlayfs copies up when a directory is renamed), such that every rename can be carried out. *)
Record movable (e : env) (f : fs) (ub : path) (dev : N) (sel : list change) : Prop := {
  (** every entry stands for something staged *)
  mb_staged : ∀ c, c ∈ sel → ∃ r n, r ≠ [] ∧ f !! (ub ++ r) = Some n ∧ c_staged c = Some (details_of (ub ++ r) n)
    ∧ n_kind n = KDir;
  (** and is a rename or a directory that exists on the host and that no rename concerns *)
  mb_kinds : ∀ c, c ∈ sel → is_Some (move_of c) ∨
    ((∃ t, c_op c = OSet t) ∧ (∃ k, f !! c_dest c = Some k ∧ n_kind k = KDir) ∧ under ub (c_dest c) = false ∧
     ∀ m, m ∈ moves sel → under m.1 (c_dest c) = false ∧ under m.2 (c_dest c) = false);
  mb_dests : NoDup (c_dest <$> sel);
  mb_sources : NoDup (moves sel).*1;
  (** what is renamed is a directory, not a mount point *)
  mb_source : ∀ m, m ∈ moves sel → m.1 ≠ [] ∧ parent_dev f m.1 = dev ∧
    ∃ n, f !! m.1 = Some n ∧ n_kind n = KDir ∧ n_dev n = dev;
  (** its new parent directory exists and the new name is free, once the other renames are done *)
  mb_free : ∀ m, m ∈ moves sel → ∃ p x d, m.2 = p ++ [x] ∧ comp_ok x ∧ n_kind d = KDir ∧ n_dev d = dev ∧
    arranged f (moves sel) (filter (λ m', above m'.2 m.2 = true) (moves sel)) p (Some d) ∧
    arranged f (moves sel) (filter (λ m', above m'.2 m.2 = true) (moves sel)) m.2 None;
  (** all on one mount, with the current directory, which is not itself renamed *)
  mb_mount : ∃ mp, find_mount_point f (e_cwd e) = Ok mp ∧
    ∀ m, m ∈ moves sel → find_mount_point f m.1 = Ok mp ∧ find_mount_point f m.2 = Ok mp;
  mb_cwd : ∃ d, f !! e_cwd e = Some d ∧ n_kind d = KDir ∧ n_dev d = dev;
  mb_cwd_stays : ∀ m, m ∈ moves sel → under m.1 (e_cwd e) = false ∧ under m.2 (e_cwd e) = false;
  (** the sandbox storage is elsewhere *)
  mb_storage : under ub (e_cwd e) = false ∧ ∀ m, m ∈ moves sel →
    under ub m.1 = false ∧ under m.1 ub = false ∧ under ub m.2 = false ∧ under m.2 ub = false;
  (** the temporary names are new *)
  mb_tmp : ∀ ph i m, m ∈ moves sel →
    contains "/" (e_uuid e ph i) = false ∧
    f !! tmp_name (e_cwd e) m.1 m.2 (e_uuid e ph i) = None ∧
    ∀ m', m' ∈ moves sel → under (tmp_name (e_cwd e) m.1 m.2 (e_uuid e ph i)) m'.2 = false;
  mb_tmp_distinct : ∀ i j m m', m ∈ moves sel → m' ∈ moves sel → m ≠ m' → i ≠ j →
    tmp_name (e_cwd e) m.1 m.2 (e_uuid e 2 i) ≠ tmp_name (e_cwd e) m'.1 m'.2 (e_uuid e 2 j);
}.

(** ** Generic lemmas *)
Lemma clean_up_ok (e : env) (ub : path) (dev : N) (f1 : fs) (ps : list path) : env_ok e → wf_tree f1 → one_device f1 ub dev →
  (∀ p, p ∈ ps → is_Some (f1 !! p) ∧ ∃ r, r ≠ [] ∧ p = ub ++ r) → o_res (clean_up e ps f1) = Ok tt.
Proof.
  intros He Hw1 Hd1 Hps. unfold clean_up.
  assert (StronglySorted (cmp_le desc) (sort_by desc ps)) as Hsort by (apply sort_by_sorted, desc_preorder).
  destruct (dedup_sorted_NoDup (cmp_le desc) (sort_by desc ps)) as [Hsd HND]; [|done|].
  { intros a b. unfold cmp_le, desc. intros H1 H2. destruct path_cmp_total as [E S _].
    destruct (path_cmp a b) eqn:Eab; [by apply E| |done]. rewrite S, Eab in H1. done. }
  assert (∀ p, p ∈ dedup (sort_by desc ps) ↔ p ∈ ps) as Hin.
  { intros p. by rewrite elem_of_dedup, elem_of_sort_by. }
  set (l := dedup (sort_by desc ps)) in *.
  destruct (for_progress (λ pre, cleaned f1 pre pre) (clean_one e) l f1) as [H _]; [| |done].
  - intros pre p post s El Hs. assert (p ∈ ps) as Hp by (rewrite <-Hin, El; set_solver).
    destruct (Hps p Hp) as [[n Hn] (r & Hr & Ep)].
    pose proof Hs as [[Hws Hcl] _].
    assert (s !! p = Some n) as Hsn.
    { destruct (Hcl p) as [->|[_ (p' & Hp' & Hu)]]; [done|]. exfalso.
      pose proof (sorted_pre _ _ _ _ _ _ Hsd El Hp') as Hle. unfold desc in Hle.
      apply under_spec in Hu as [[|y r'] Eq].
      - rewrite app_nil_r in Eq. subst p'. rewrite El in HND. apply NoDup_app in HND as (_ & H & _).
        apply (H p Hp'). left.
      - rewrite Eq in Hle. by rewrite path_cmp_above in Hle. }
    assert (o_res (clean_one e p s) = Ok tt) as Hone.
    { unfold clean_one. rewrite (bind_get_ok _ _ s (negb (is_symlink s p) && is_dir s p)) by done.
      unfold is_symlink. rewrite (lstat_dom s p n) by done.
      destruct (is_kdir (n_kind n)) eqn:Ek.
      - apply is_kdir_true in Ek. unfold is_dir. rewrite (stat_dom s p n) by (done || by rewrite Ek).
        rewrite Ek. cbn [is_klink is_kdir negb andb].
        apply (rmdir_rec_complete _ p s dev n); try done.
        + intros E. rewrite E in Ep. symmetry in Ep. by apply app_eq_nil in Ep as [_ ?].
        + intros q k Hu Hk. destruct (Hcl q) as [E|[E _]]; [|congruence].
          apply (Hd1 q k); [|congruence]. eapply under_trans; [|exact Hu]. rewrite Ep. apply under_app.
        + destruct (path_snoc_case r) as [->|(r' & x & ->)]; [done|]. rewrite app_assoc in Ep.
          unfold parent_dev. rewrite Ep, removelast_snoc. rewrite Ep in Hsn.
          destruct (wf_parent s Hws _ _ _ Hsn) as (d & Hd & _). rewrite Hd.
          destruct (Hcl (ub ++ r')) as [E|[E _]]; [|congruence].
          apply (Hd1 (ub ++ r') d); [apply under_app|congruence].
      - assert (negb (is_klink (n_kind n)) && is_dir s p = false) as ->.
        { destruct (is_klink (n_kind n)) eqn:El'; [done|]. simpl. unfold is_dir.
          by rewrite (stat_dom s p n). }
        erewrite unlink_ok; [done| |exact Hsn|].
        + by eapply wf_dirpath.
        + intros E. by rewrite E in Ek. }
    split; [done|].
    destruct (clean_step e f1 (pre ++ [p]) p pre He) with (f := s) as (_ & _ & H).
    + set_solver.
    + by exists n.
    + done.
    + destruct Hs as [[H1 H2] H3]. split; [|done]. split; [done|]. intros q.
      destruct (H2 q) as [?|[? (p' & ? & ?)]]; [by left|]. right. split; [done|]. exists p'. set_solver.
    + by apply (H tt).
  - split; [split; [done|]|].
    + intros q. by left.
    + intros p Hp. by apply elem_of_nil in Hp.
Qed.

Lemma accum_paths {A : Type} (g : A → M (nat * list path)) (h : A → list path) (l : list A) (s : fs) (r : nat * list path) :
  (∀ x t r, x ∈ l → o_res (g x t) = Ok r → r.2 = h x) → o_res (accum l g s) = Ok r → r.2 = mjoin (h <$> l).
Proof.
  intros Hg. revert s r. induction l as [|x l IH]; intros s r H; cbn [accum] in H.
  - by injection H as <-.
  - apply bind_inv in H as (r1 & H1 & H). apply bind_inv in H as (r2 & H2 & H). injection H as <-.
    simpl. rewrite (Hg x _ _ ltac:(left) H1), (IH (λ y t r0 Hy, Hg y t r0 ltac:(by right)) _ _ H2). done.
Qed.

(** What an entry is, apart from the temporary name. *)
Definition core (c : change) : change := Change (c_dest c) (c_op c) (c_source c) (c_staged c) None.
Lemma move_of_core (c : change) : move_of (core c) = move_of c.
Proof. done. Qed.
Lemma moves_core (cs : list change) : moves (core <$> cs) = moves cs.
Proof.
  unfold moves. induction cs as [|c cs IH]; [done|]. csimpl. change (move_of (core c)) with (move_of c).
  destruct (move_of c); by rewrite IH.
Qed.
Lemma moves_app (a b : list change) : moves (a ++ b) = moves a ++ moves b.
Proof. unfold moves. apply omap_app. Qed.
Lemma elem_of_moves (cs : list change) (m : path * path) : m ∈ moves cs ↔ ∃ c, c ∈ cs ∧ move_of c = Some m.
Proof. unfold moves. apply elem_of_list_omap. Qed.
Lemma moves_perm (a b : list change) : a ≡ₚ b → moves a ≡ₚ moves b.
Proof. unfold moves. intros H. by rewrite H. Qed.
Lemma core_assign (e : env) (ph i : nat) (c : change) : core (assign_tmp e ph i c) = core c.
Proof. unfold assign_tmp, core. destruct (c_op c) eqn:Eo, (c_source c) eqn:Es; cbn; rewrite ?Eo, ?Es; done. Qed.
Lemma core_imap_assign (e : env) (ph : nat) (l : list change) : core <$> imap (assign_tmp e ph) l = core <$> l.
Proof.
  assert (∀ (h : nat → nat), core <$> imap (λ i, assign_tmp e ph (h i)) l = core <$> l) as H; [|apply (H id)].
  induction l as [|c l IH]; intros h; [done|]. rewrite imap_cons. cbn [fmap list_fmap]. f_equal; [apply core_assign|].
  apply (IH (h ∘ S)).
Qed.
Lemma core_eq (c c' : change) : core c = core c' →
  c_dest c = c_dest c' ∧ c_op c = c_op c' ∧ c_source c = c_source c' ∧ c_staged c = c_staged c'.
Proof. unfold core. by intros [=]. Qed.

Lemma omap_pos {A B : Type} (g : A → option B) (l : list A) (i j : nat) (x y : A) (m : B) :
  NoDup (omap g l) → l !! i = Some x → l !! j = Some y → g x = Some m → g y = Some m → i = j.
Proof.
  revert i j. induction l as [|a l IH]; intros i j HND Hi Hj Hx Hy; [by rewrite lookup_nil in Hi|].
  csimpl in HND. destruct i as [|i], j as [|j]; [done|..]; simpl in Hi, Hj.
  - injection Hi as ->. rewrite Hx in HND. apply NoDup_cons in HND as [Hn _]. exfalso. apply Hn.
    apply elem_of_list_omap. exists y. split; [by eapply elem_of_list_lookup_2|done].
  - injection Hj as ->. rewrite Hy in HND. apply NoDup_cons in HND as [Hn _]. exfalso. apply Hn.
    apply elem_of_list_omap. exists x. split; [by eapply elem_of_list_lookup_2|done].
  - f_equal. eapply IH; eauto. destruct (g a); [by apply NoDup_cons in HND as [_ ?]|done].
Qed.

Lemma imap_pairs_snd {A : Type} (l : list A) : (imap (λ i c, (i, c)) l).*2 = l.
Proof.
  assert (∀ h : nat → nat, (imap (λ i c, (h i, c)) l).*2 = l) as H; [|apply (H id)].
  induction l as [|c l IH]; intros h; [done|]. rewrite imap_cons, fmap_cons. f_equal. apply (IH (h ∘ S)).
Qed.

Lemma ss_core (cmp : change → change → comparison) (l l' : list change) :
  (∀ a b, cmp (core a) (core b) = cmp a b) → core <$> l = core <$> l' →
  StronglySorted (cmp_le cmp) l → StronglySorted (cmp_le cmp) l'.
Proof.
  intros Hc. revert l'. induction l as [|a l IH]; intros [|b l'] E H; [constructor|done|done|].
  assert (core a = core b) as E0 by (cbn in E; congruence). assert (core <$> l = core <$> l') as E' by (cbn in E; congruence).
  clear E. rename E' into E. apply StronglySorted_inv in H as [H1 H2]. constructor; [by apply IH|].
  rewrite Forall_forall in H2 |- *. intros x Hx. assert (core x ∈ core <$> l) as Hx'.
  { rewrite E. apply elem_of_list_fmap. by exists x. }
  apply elem_of_list_fmap in Hx' as (y & Ey & Hy). unfold cmp_le. rewrite <-Hc.
  rewrite <-E0, Ey, Hc. by apply (H2 y).
Qed.

Lemma set_dir_perms (g : fs) (q u : path) (n k : node) : wf_tree g → g !! q = Some k → n_kind k = KDir → n_kind n = KDir →
  (n_perm n < 4096)%N →
  o_res (set_permissions q (details_of u n) g) = Ok tt ∧ o_fs (set_permissions q (details_of u n) g) = <[q := with_attrs n k]> g.
Proof.
  intros Hwg Hk Hkd Hnd Hperm. assert (dirpath g q) as Hd by (by eapply wf_dirpath).
  assert (∀ k, dirpath (<[q := k]> g) q) as Hins.
  { intros k' a y r E. destruct (Hd a y r E) as [(d & Hdq & Hdk) Hy]. split; [|done].
    exists d. split; [|done]. rewrite lookup_insert_ne; [done|]. rewrite E. by apply snoc_ne_self. }
  unfold set_permissions. rewrite (bind_ok _ _ _ tt) by (by rewrite (lchown_ok g _ k)). cbn [o_res o_fs].
  rewrite (lchown_ok g _ k) by done. cbn [o_fs emit details_of d_mode d_uid d_gid].
  rewrite mode_type, Hnd. cbn [kind_type]. change (S_IFDIR =? S_IFLNK)%N with false. cbv iota.
  erewrite lchmod_ok; [|apply Hins|by rewrite lookup_insert|by cbn; rewrite Hkd].
  cbn [o_res o_fs emit]. split; [done|]. rewrite insert_insert. f_equal. unfold set_perm, chowned, set_owner, with_attrs. cbn.
  f_equal. rewrite mode_perm. unfold o7777. change 4095%N with (N.ones 12). rewrite N.land_ones. by apply N.mod_small.
Qed.

Section accept.
  Context (e : env) (f : fs) (ub : path) (dev udev : N) (sel : list change).
  Hypothesis Hwf : wf_tree f.
  Hypothesis He : env_ok e.
  Hypothesis Hmb : movable e f ub dev sel.
  Hypothesis Hud : one_device f ub udev.

  Let mv := moves sel.
  Definition like (cs : list change) : Prop := core <$> cs ≡ₚ core <$> sel.

  Lemma like_in (cs : list change) (c : change) : like cs → c ∈ cs → ∃ c0, c0 ∈ sel ∧ core c = core c0.
  Proof.
    intros HL Hc. unfold like in HL. assert (core c ∈ core <$> sel) as H by (rewrite <-HL; apply elem_of_list_fmap; by exists c).
    apply elem_of_list_fmap in H as (c0 & E & H). by exists c0.
  Qed.
  Lemma like_moves (cs : list change) : like cs → moves cs ≡ₚ mv.
  Proof. intros HL. unfold mv. rewrite <-(moves_core cs), <-(moves_core sel). by apply moves_perm. Qed.
  Lemma like_dests (cs : list change) : like cs → NoDup (c_dest <$> cs).
  Proof.
    intros HL. assert (c_dest <$> cs ≡ₚ c_dest <$> sel) as ->; [|apply Hmb].
    assert (∀ l : list change, c_dest <$> l = c_dest <$> (core <$> l)) as E.
    { intros l. rewrite <-list_fmap_compose. done. }
    unfold like in HL. rewrite (E cs), (E sel). by rewrite HL.
  Qed.
  Lemma like_sort (cmp : change → change → comparison) (cs : list change) : like cs → like (sort_by cmp cs).
  Proof. intros HL. unfold like. by rewrite sort_by_perm. Qed.
  Lemma like_imap (ph : nat) (cs : list change) : like cs → like (imap (assign_tmp e ph) cs).
  Proof. intros HL. unfold like. by rewrite core_imap_assign. Qed.
  Lemma mv_nodup : NoDup mv.
  Proof. eapply NoDup_fmap_1. apply (mb_sources _ _ _ _ _ Hmb). Qed.
  Lemma like_moves_nodup (cs : list change) : like cs → NoDup (moves cs).
  Proof. intros HL. rewrite (like_moves cs HL). apply mv_nodup. Qed.

  (** An entry is a rename or an existing directory. *)
  Definition ren (c : change) (m : path * path) : Prop :=
    m ∈ mv ∧ move_of c = Some m ∧ c_op c = ORename ∧ c_dest c = m.2 ∧ ∃ s, c_source c = Some s ∧ d_path s = m.1.
  Definition dset (c : change) (n k : node) (u : path) : Prop :=
    move_of c = None ∧ (∃ t, c_op c = OSet t) ∧ c_staged c = Some (details_of u n) ∧ f !! u = Some n ∧ n_kind n = KDir ∧
    f !! c_dest c = Some k ∧ n_kind k = KDir ∧ under ub (c_dest c) = false ∧
    ∀ m, m ∈ mv → under m.1 (c_dest c) = false ∧ under m.2 (c_dest c) = false.
  Lemma entry (c c0 : change) : c0 ∈ sel → core c = core c0 → (∃ m, ren c m) ∨ ∃ n k u, dset c n k u.
  Proof.
    intros Hc0 E. apply core_eq in E as (E1 & E2 & E3 & E4).
    assert (move_of c = move_of c0) as Em by (unfold move_of; by rewrite E1, E2, E3).
    destruct (mb_kinds _ _ _ _ _ Hmb c0 Hc0) as [[m Hm]|(Ht & (k & Hk & Hkd) & Hub & Hms)].
    - left. exists m. assert (m ∈ mv) as Hin by (apply elem_of_moves; by exists c0). split; [done|].
      split; [congruence|]. unfold move_of in Hm. rewrite E2, E3, E1.
      destruct (c_op c0); try done. destruct (c_source c0) as [s|]; [|done]. injection Hm as <-. cbn. split; [done|]. split; [done|].
      by exists s.
    - right. destruct (mb_staged _ _ _ _ _ Hmb c0 Hc0) as (r & n & _ & Hn & Hst & Hkn). exists n, k, (ub ++ r).
      split; [|split; [|split; [|split; [|split; [|split; [|split; [|split]]]]]]]; try done.
      + rewrite Em. unfold move_of. destruct Ht as [t ->]. done.
      + destruct Ht as [t Ht]. exists t. congruence.
      + congruence.
      + by rewrite E1.
      + by rewrite E1.
      + intros m Hm. rewrite E1. by apply Hms.
  Qed.
  Lemma entry_like (cs : list change) (c : change) : like cs → c ∈ cs → (∃ m, ren c m) ∨ ∃ n k u, dset c n k u.
  Proof. intros HL Hc. destruct (like_in cs c HL Hc) as (c0 & Hc0 & E). by eapply entry. Qed.
  Lemma staged_like (cs : list change) (c : change) : like cs → c ∈ cs →
    ∃ r n, r ≠ [] ∧ f !! (ub ++ r) = Some n ∧ c_staged c = Some (details_of (ub ++ r) n) ∧ n_kind n = KDir.
  Proof.
    intros HL Hc. destruct (like_in cs c HL Hc) as (c0 & Hc0 & E). apply core_eq in E as (_ & _ & _ & ->).
    by apply Hmb.
  Qed.

  (** *** The phases that do nothing here *)
  Lemma removes_skip (pretend : bool) (cs : list change) (g : fs) : like cs →
    accum cs (accept_remove pretend) g = Out [] g (Ok (0, [])).
  Proof.
    intros HL. assert (∀ c, c ∈ cs → c_op c ≠ ORemove) as H.
    { intros c Hc. destruct (entry_like cs c HL Hc) as [(m & _ & _ & -> & _)|(n & k & u & _ & [t ->] & _)]; done. }
    clear HL. revert g. induction cs as [|c cs IH]; intros g; [done|]. cbn [accum].
    assert (accept_remove pretend c g = Out [] g (Ok (0, []))) as E.
    { unfold accept_remove. specialize (H c ltac:(left)). by destruct (c_op c). }
    rewrite (bind_ok _ _ _ (0, [])) by (by rewrite E). rewrite E. cbn [o_trace o_fs].
    rewrite (bind_ok _ _ _ (0, [])) by (rewrite IH; [done|]; intros c' Hc'; apply H; by right).
    rewrite IH by (intros c' Hc'; apply H; by right). done.
  Qed.

  (** *** The temporary names *)
  Lemma slash_free (q : path) (n : node) : f !! q = Some n → contains "/" (text_name q) = false.
  Proof.
    intros Hq. destruct (path_snoc_case q) as [-> |(a & x & ->)]; [done|]. apply text_name_slash.
    by destruct (wf_comp f Hwf a x n Hq) as (_ & _ & _ & ?).
  Qed.
  Lemma tmp_facts (ph i : nat) (m : path * path) : m ∈ mv → ∃ x,
    tmp_name (e_cwd e) m.1 m.2 (e_uuid e ph i) = e_cwd e ++ [x] ∧ comp_ok x ∧
    f !! tmp_name (e_cwd e) m.1 m.2 (e_uuid e ph i) = None.
  Proof.
    intros Hm. destruct (mb_tmp _ _ _ _ _ Hmb ph i m Hm) as (Hu & Hn & _). unfold tmp_name in *. eexists. split; [done|]. split; [|done].
    assert (contains "/" (text_name m.1) = false) as H1.
    { destruct (mb_source _ _ _ _ _ Hmb m Hm) as (_ & _ & n & Hn' & _). by eapply slash_free. }
    assert (contains "/" (text_name m.2) = false) as H2.
    { destruct (mb_free _ _ _ _ _ Hmb m Hm) as (p & x & d & -> & Hx & _). apply text_name_slash. by destruct Hx as (_ & _ & _ & ?). }
    split; [done|]. split; [done|]. split; [done|].
    apply contains_app_slash; [done|]. apply contains_app_slash; [done|]. apply contains_app_slash; [done|].
    apply contains_app_slash; [done|]. apply contains_app_slash; [done|]. done.
  Qed.

  (** *** The dry run *)
  Lemma tmp_mount (ph i : nat) (m : path * path) : m ∈ mv →
    find_mount_point f (tmp_name (e_cwd e) m.1 m.2 (e_uuid e ph i)) = find_mount_point f (e_cwd e).
  Proof.
    intros Hm. destruct (tmp_facts ph i m Hm) as (x & E & Hx & Hn). rewrite E in Hn |- *.
    unfold find_mount_point. rewrite rev_app_distr. cbn [rev app fmp_existing].
    assert (exists_ f (rev (rev (e_cwd e)) ++ [x]) = false) as E'.
    { rewrite rev_involutive. unfold exists_. destruct (stat f (e_cwd e ++ [x])) as [n|] eqn:Es; [|done]. exfalso.
      destruct (mb_cwd _ _ _ _ _ Hmb) as (d & Hd & Hk & _).
      rewrite stat_dirpath in Es; [by rewrite Hn in Es| |].
      - apply dirpath_snoc; [done|by exists d|done].
      - intros n' Hn'. congruence. }
    by rewrite E'.
  Qed.

  Lemma tmp_assigned (ph : nat) (l : list change) (c : change) (m : path * path) : like l →
    c ∈ imap (assign_tmp e ph) l → move_of c = Some m →
    ∃ i, imap (assign_tmp e ph) l !! i = Some c ∧ c_tmp c = Some (tmp_name (e_cwd e) m.1 m.2 (e_uuid e ph i)).
  Proof.
    intros HL Hc Hm. apply elem_of_lookup_imap in Hc as (i & c1 & -> & Hi).
    exists i. split; [by rewrite list_lookup_imap, Hi|].
    assert (move_of c1 = Some m) as Hm1.
    { rewrite <-Hm, <-move_of_core, <-(move_of_core (assign_tmp e ph i c1)). by rewrite core_assign. }
    unfold move_of in Hm1. unfold assign_tmp. destruct (c_op c1); try done. destruct (c_source c1) as [s|]; [|done].
    by injection Hm1 as <-.
  Qed.

  Lemma dry_run (cs : list change) : like cs → ∃ r, o_res (accept_pass e 0 true cs f) = Ok r ∧ like r.2.
  Proof.
    intros HL. unfold accept_pass.
    set (l1 := sort_by by_reverse_source cs). assert (like l1) as HL1 by (by apply like_sort).
    set (l2 := sort_by by_reverse_source l1). assert (like l2) as HL2 by (by apply like_sort).
    set (l3 := sort_by by_destination (imap (assign_tmp e 0) l2)).
    assert (like l3) as HL3 by (apply like_sort, like_imap; done).
    rewrite (bind_ok _ _ _ (0, [])) by (by rewrite removes_skip). rewrite removes_skip by done. cbn [o_fs o_res].
    destruct (for_progress (λ _ t, t = f) (accept_premove true) (imap (assign_tmp e 0) l2) f) as [Hr Hf]; [|done|].
    { intros pre c post t El ->. split; [|apply pure_accept_premove].
      assert (c ∈ imap (assign_tmp e 0) l2) as Hc by (rewrite El; set_solver).
      destruct (entry_like _ c (like_imap 0 l2 HL2) Hc) as [(m & Hm & Emv & Eo & Ed & s & Es & Ep)|(n & k & u & _ & [t Eo] & _)].
      - destruct (tmp_assigned 0 l2 c m HL2 Hc Emv) as (i & _ & Et). unfold accept_premove. rewrite Eo, Es, Et, Ep, Ed.
        destruct (mb_mount _ _ _ _ _ Hmb) as (mp & H0 & H). destruct (H m Hm) as [H1 H2].
        rewrite (bind_get_ok _ _ f mp) by done.
        rewrite (bind_get_ok _ _ f mp) by (by rewrite tmp_mount).
        rewrite (bind_get_ok _ _ f mp) by done. by rewrite decide_True.
      - unfold accept_premove. by rewrite Eo. }
    rewrite (bind_ok _ _ _ tt) by done. cbn [o_res o_fs]. rewrite Hf.
    destruct (accum_progress (λ _ t, t = f) (accept_set e 0 true) (imap (λ i c, (i, c)) l3) f) as (r3 & Hr3 & Hf3); [|done|].
    { intros pre [i c] post t El ->. apply imap_snd_elem in El. simpl in El.
      assert (c ∈ l3) as Hc by (rewrite El; set_solver).
      destruct (entry_like _ c HL3 Hc) as [(m & Hm & Emv & Eo & _)|(n & k & u & _ & [t Eo] & Est & _ & Hkn & _)].
      - exists (1, []). split; [|apply pure_accept_set]. unfold accept_set. by rewrite Eo.
      - unfold accept_set. rewrite Eo, Est. rewrite d_is_file_of, d_is_symlink_of, d_is_dir_of, Hkn. cbn [is_kfile is_klink is_kdir].
        eexists. split; done. }
    rewrite (bind_ok _ _ _ r3) by done. cbn [o_res]. eexists. split; [reflexivity|]. done.
  Qed.

  (** *** The real run *)
  Lemma moves_split (l pre post : list change) (c : change) (m : path * path) : l = pre ++ c :: post → move_of c = Some m →
    moves l = moves pre ++ m :: moves post.
  Proof. intros -> Hm. rewrite moves_app. f_equal. unfold moves. csimpl. by rewrite Hm. Qed.
  Lemma moves_snoc (pre : list change) (c : change) : moves (pre ++ [c]) = moves pre ++ match move_of c with Some m => [m] | None => [] end.
  Proof. by rewrite moves_app. Qed.

  Section run.
    Context (cs : list change).
    Hypothesis HL : like cs.
    Let l2 := sort_by by_reverse_source (sort_by by_reverse_source cs).
    Let cs2 := imap (assign_tmp e 2) l2.
    Let cs3 := sort_by by_destination cs2.
    Lemma HL2 : like cs2.
    Proof. apply like_imap, like_sort, like_sort, HL. Qed.
    Lemma HL3 : like cs3.
    Proof. apply like_sort, HL2. Qed.

    Definition tau (m : path * path) : path :=
      match list_find (λ c, move_of c = Some m) cs2 with
      | Some (_, c) => default [] (c_tmp c)
      | None => []
      end.
    Lemma tau_spec (c : change) (m : path * path) : c ∈ cs2 → move_of c = Some m →
      ∃ i, cs2 !! i = Some c ∧ c_tmp c = Some (tau m) ∧ tau m = tmp_name (e_cwd e) m.1 m.2 (e_uuid e 2 i).
    Proof.
      intros Hc Hm.
      destruct (tmp_assigned 2 l2 c m ltac:(apply like_sort, like_sort, HL) Hc Hm) as (i & Hi & Ht). fold cs2 in Hi.
      assert (tau m = tmp_name (e_cwd e) m.1 m.2 (e_uuid e 2 i)) as E; [|exists i; split; [done|]; split; congruence].
      unfold tau. destruct (list_find_elem_of (λ c, move_of c = Some m) cs2 c Hc Hm) as [[j c'] Hj]. rewrite Hj.
      apply list_find_Some in Hj as (Hj & Hm' & _).
      assert (i = j) as ->.
      { eapply (omap_pos move_of cs2); eauto. apply (like_moves_nodup cs2 HL2). }
      assert (c' = c) as -> by congruence. by rewrite Ht.
    Qed.
    Lemma mv_in (m : path * path) : m ∈ mv → ∃ c, c ∈ cs2 ∧ move_of c = Some m.
    Proof. intros Hm. apply elem_of_moves. by rewrite (like_moves cs2 HL2). Qed.
    Lemma tau_tmp (m : path * path) : m ∈ mv → ∃ i c, cs2 !! i = Some c ∧ move_of c = Some m ∧
      tau m = tmp_name (e_cwd e) m.1 m.2 (e_uuid e 2 i).
    Proof.
      intros Hm. destruct (mv_in m Hm) as (c & Hc & Hmc). destruct (tau_spec c m Hc Hmc) as (i & Hi & _ & Ht). by exists i, c.
    Qed.

    Lemma h_tau : ∀ m, m ∈ mv → ∃ x, tau m = e_cwd e ++ [x] ∧ comp_ok x ∧ f !! tau m = None.
    Proof. intros m Hm. destruct (tau_tmp m Hm) as (i & c & _ & _ & ->). by apply tmp_facts. Qed.
    Lemma h_tau_inj : ∀ m m', m ∈ mv → m' ∈ mv → tau m = tau m' → m = m'.
    Proof.
      intros m m' Hm Hm' E. destruct (tau_tmp m Hm) as (i & c & Hi & Hmc & Et). destruct (tau_tmp m' Hm') as (j & c' & Hj & Hmc' & Et').
      destruct (decide (m = m')) as [|Hne]; [done|]. exfalso. destruct (decide (i = j)) as [-> |Hij].
      - congruence.
      - apply (mb_tmp_distinct _ _ _ _ _ Hmb i j m m' Hm Hm' Hne Hij). congruence.
    Qed.
    Lemma h_tau_dst : ∀ m m', m ∈ mv → m' ∈ mv → under (tau m) m'.2 = false.
    Proof. intros m m' Hm Hm'. destruct (tau_tmp m Hm) as (i & c & _ & _ & ->). by apply (mb_tmp _ _ _ _ _ Hmb 2 i m Hm). Qed.
    Lemma h_dst_inj : ∀ m m', m ∈ mv → m' ∈ mv → m.2 = m'.2 → m = m'.
    Proof.
      intros m m' Hm Hm' E. apply elem_of_moves in Hm as (c & Hc & Hmc). apply elem_of_moves in Hm' as (c' & Hc' & Hmc').
      destruct (entry c c Hc eq_refl) as [(m1 & _ & E1 & _ & Ed & _)|(n & k & u & En & _)]; [|congruence].
      destruct (entry c' c' Hc' eq_refl) as [(m2 & _ & E2 & _ & Ed' & _)|(n & k & u & En & _)]; [|congruence].
      assert (m1 = m) as -> by congruence. assert (m2 = m') as -> by congruence.
      apply elem_of_list_lookup in Hc as [i Hi]. apply elem_of_list_lookup in Hc' as [j Hj].
      assert (i = j) as ->.
      { eapply (NoDup_lookup (c_dest <$> sel)); [apply Hmb|rewrite list_lookup_fmap, Hi; done|].
        rewrite list_lookup_fmap, Hj. cbn. f_equal. congruence. }
      congruence.
    Qed.

    Lemma h_src_inj : ∀ m m', m ∈ mv → m' ∈ mv → m.1 = m'.1 → m = m'.
    Proof.
      intros m m' Hm Hm' E. pose proof (mb_sources _ _ _ _ _ Hmb) as HNs. fold mv in HNs.
      apply elem_of_list_lookup in Hm as [a Ha]. apply elem_of_list_lookup in Hm' as [b Hb].
      assert (a = b) as ->; [|congruence].
      eapply (NoDup_lookup mv.*1); [done|rewrite list_lookup_fmap, Ha; done|]. rewrite list_lookup_fmap, Hb. cbn. by f_equal.
    Qed.
    Definition h_cwd1 (m : path * path) (Hm : m ∈ mv) := proj1 (mb_cwd_stays _ _ _ _ _ Hmb m Hm).
    Definition h_cwd2 (m : path * path) (Hm : m ∈ mv) := proj2 (mb_cwd_stays _ _ _ _ _ Hmb m Hm).
    Definition aside_step' := aside_step f (e_cwd e) dev mv tau Hwf (mb_cwd _ _ _ _ _ Hmb) h_cwd1 h_cwd2
      (mb_source _ _ _ _ _ Hmb) h_src_inj h_dst_inj h_tau h_tau_inj h_tau_dst.
    Definition place_step' := place_step f (e_cwd e) dev mv tau Hwf (mb_cwd _ _ _ _ _ Hmb) h_cwd1 h_cwd2
      (mb_source _ _ _ _ _ Hmb) h_src_inj h_dst_inj h_tau h_tau_inj h_tau_dst (mb_free _ _ _ _ _ Hmb).
    Definition attr_step' := attr_step f (e_cwd e) dev mv tau Hwf (mb_cwd _ _ _ _ _ Hmb) h_cwd1 h_cwd2
      (mb_source _ _ _ _ _ Hmb) h_src_inj h_dst_inj h_tau h_tau_inj h_tau_dst (mb_free _ _ _ _ _ Hmb).

    Lemma sorted2 : StronglySorted (cmp_le by_reverse_source) cs2.
    Proof.
      eapply (ss_core by_reverse_source l2 cs2).
      - done.
      - symmetry. apply core_imap_assign.
      - apply sort_by_sorted, by_reverse_source_preorder.
    Qed.
    Lemma sorted3 : StronglySorted (cmp_le by_destination) cs3.
    Proof. apply sort_by_sorted, by_destination_preorder. Qed.

    Lemma moved_aside : o_res (for_ cs2 (accept_premove false) f) = Ok tt ∧
      aside f mv tau mv (o_fs (for_ cs2 (accept_premove false) f)).
    Proof.
      destruct (for_progress (λ pre, aside f mv tau (moves pre)) (accept_premove false) cs2 f) as [Hr Hf].
      - intros pre c post t El Ht. assert (c ∈ cs2) as Hc by (rewrite El; set_solver).
        rewrite moves_snoc.
        destruct (entry_like _ c HL2 Hc) as [(m & Hm & Emv & Eo & Ed & s & Es & Ep)|(n & k & u & Emv & [t' Eo] & _)].
        + destruct (tau_spec c m Hc Emv) as (i & _ & Et & _). unfold accept_premove. rewrite Eo, Es, Et, Ep, Emv.
          pose proof (like_moves_nodup cs2 HL2) as HND. rewrite (moves_split cs2 pre post c m El Emv) in HND.
          apply NoDup_app in HND as (_ & Hdisj & HND). apply NoDup_cons in HND as [Hpost _].
          assert (∀ m', m' ∈ moves pre → m' ∈ mv) as Hsub.
          { intros m' Hm'. rewrite <-(like_moves cs2 HL2), El, moves_app. set_solver. }
          destruct (aside_step' (moves pre) m t Hsub Hm) as [H1 H2]; [..|exact Ht|].
          * intros Hin. apply (Hdisj m Hin). left.
          * intros m' Hm'. destruct (under m'.1 m.1) eqn:U; [|done]. exfalso.
            pose proof Hm' as Hin. apply elem_of_moves in Hm' as (c' & Hc' & Emv').
            pose proof (sorted_pre _ _ _ _ _ _ sorted2 El Hc') as Hle. unfold by_reverse_source in Hle.
            destruct (entry_like _ c' HL2 ltac:(rewrite El; set_solver)) as [(m1 & _ & E1 & _ & _ & s' & Es' & Ep')|(? & ? & ? & ? & _)]; [|congruence].
            assert (m1 = m') as -> by congruence. rewrite Es, Es', Ep, Ep' in Hle.
            apply under_spec in U as [[|y r] Er].
            -- rewrite app_nil_r in Er. apply (Hdisj m' Hin).
               assert (m' = m) as -> by (apply h_src_inj; [by apply Hsub|done|done]). left.
            -- rewrite Er in Hle. by rewrite path_cmp_above in Hle.
          * intros m' Hm' Ha. apply above_spec in Ha as [Ha Hne]. apply under_spec in Ha as [[|y r] Er].
            { by rewrite app_nil_r in Er. }
            destruct (mv_in m' Hm') as (c' & Hc' & Emv'). rewrite El in Hc'.
            apply elem_of_app in Hc' as [Hc'|Hc']; [apply elem_of_moves; by exists c'|]. exfalso.
            apply elem_of_cons in Hc' as [-> |Hc'].
            { assert (m = m') as -> by congruence. done. }
            apply elem_of_list_split in Hc' as (p1 & p2 & Epost).
            assert (cs2 = (pre ++ c :: p1) ++ c' :: p2) as El' by (rewrite El, Epost; by rewrite <-app_assoc).
            pose proof (sorted_pre _ _ _ _ _ c sorted2 El' ltac:(set_solver)) as Hle. unfold by_reverse_source in Hle.
            destruct (entry_like _ c' HL2 ltac:(rewrite El'; set_solver)) as [(m1 & _ & E1 & _ & _ & s' & Es' & Ep')|(? & ? & ? & ? & _)]; [|congruence].
            assert (m1 = m') as -> by congruence. rewrite Es, Es', Ep, Ep', Er in Hle. by rewrite path_cmp_above in Hle.
          * rewrite H1. split; [done|]. exact H2.
        + unfold accept_premove. rewrite Eo, Emv, app_nil_r. done.
      - split; [done|]. split.
        + intros m r Hm. by apply elem_of_nil in Hm.
        + intros q _. done.
      - split; [done|]. destruct Hf as (H1 & H2 & H3). pose proof (like_moves cs2 HL2) as HP.
        split; [done|]. split.
        + intros m r Hm. apply H2. by rewrite HP.
        + intros q Hq. rewrite H3 by (intros m Hm; apply Hq; by rewrite <-HP).
          apply left_behind_ext. intros m. by rewrite HP.
    Qed.

    Definition attr_of (c : change) : option (path * node) :=
      match move_of c, c_staged c, f !! c_dest c with
      | None, Some st, Some k =>
          match f !! d_path st with Some n => Some (c_dest c, with_attrs n k) | None => None end
      | _, _, _ => None
      end.
    Definition attrs (l : list change) : list (path * node) := omap attr_of l.
    Lemma attrs_snoc (pre : list change) (c : change) : attrs (pre ++ [c]) = attrs pre ++ match attr_of c with Some m => [m] | None => [] end.
    Proof. unfold attrs. by rewrite omap_app. Qed.
    Lemma attr_ren (c : change) (m : path * path) : move_of c = Some m → attr_of c = None.
    Proof. intros Hm. unfold attr_of. by rewrite Hm. Qed.
    Lemma attr_dset (c : change) (n k : node) (u : path) : dset c n k u → attr_of c = Some (c_dest c, with_attrs n k).
    Proof. intros (E & _ & Est & Hu & _ & Hk & _). unfold attr_of. rewrite E, Est, Hk. cbn. by rewrite Hu. Qed.

    Lemma attrs_loose (pre : list change) : (∀ c, c ∈ pre → c ∈ cs3) → loose f mv (attrs pre).
    Proof.
      intros Hpre q n' Hin. apply elem_of_list_omap in Hin as (c & Hc & Ha).
      destruct (entry_like _ c HL3 (Hpre c Hc)) as [(m & _ & Emv & _)|(n & k & u & Hd)].
      - by rewrite (attr_ren c m Emv) in Ha.
      - rewrite (attr_dset c n k u Hd) in Ha. injection Ha as <- <-. destruct Hd as (_ & _ & _ & _ & Hkn & Hk & Hkk & _ & Hms).
        exists k. split; [done|]. split; [done|]. split; [done|]. done.
    Qed.

    Lemma put_in_place (g : fs) : aside f mv tau mv g →
      ∃ r, o_res (accum (imap (λ i c, (i, c)) cs3) (accept_set e 2 false) g) = Ok r ∧
        placing f mv tau (attrs cs3) mv (o_fs (accum (imap (λ i c, (i, c)) cs3) (accept_set e 2 false) g)).
    Proof.
      intros Hg.
      destruct (accum_progress (λ pre, placing f mv tau (attrs pre.*2) (moves pre.*2)) (accept_set e 2 false)
        (imap (λ i c, (i, c)) cs3) g) as (r & Hr & Hf).
      - intros pre [i c] post t El Ht. apply imap_snd_elem in El. simpl in El.
        set (pr := pre.*2) in *. set (po := post.*2) in *.
        rewrite fmap_app. cbn [fmap list_fmap snd]. fold pr.
        assert (c ∈ cs3) as Hc by (rewrite El; set_solver).
        assert (∀ c', c' ∈ pr → c' ∈ cs3) as Hpr by (intros c' Hc'; rewrite El; set_solver).
        assert (∀ m', m' ∈ moves pr → m' ∈ mv) as Hsub.
        { intros m' Hm'. rewrite <-(like_moves cs3 HL3), El, moves_app. set_solver. }
        rewrite moves_snoc, attrs_snoc.
        destruct (entry_like _ c HL3 Hc) as [(m & Hm & Emv & Eo & Ed & s & Es & Ep)|(n & k & u & Hd)].
        + rewrite (attr_ren c m Emv), Emv, app_nil_r.
          assert (c ∈ cs2) as Hc2 by (by rewrite <-(sort_by_perm by_destination cs2)).
          destruct (tau_spec c m Hc2 Emv) as (i' & _ & Et & _).
          destruct (staged_like cs3 c HL3 Hc) as (r & n & _ & _ & Est & _).
          unfold accept_set. rewrite Eo, Et, Ed, Est.
          pose proof (like_moves_nodup cs3 HL3) as HND. rewrite (moves_split cs3 pr po c m El Emv) in HND.
          apply NoDup_app in HND as (_ & Hdisj & HND). apply NoDup_cons in HND as [Hpost _].
          destruct (place_step' (attrs pr) (moves pr) m t (attrs_loose pr Hpr) Hsub Hm) as [H1 H2]; [..|exact Ht|].
          * intros Hin. apply (Hdisj m Hin). left.
          * intros m' Hm'. destruct (under m.2 m'.2) eqn:U; [|done]. exfalso.
            pose proof Hm' as Hin. apply elem_of_moves in Hm' as (c' & Hc' & Emv').
            pose proof (sorted_pre _ _ _ _ _ _ sorted3 El Hc') as Hle. unfold by_destination in Hle.
            destruct (entry_like _ c' HL3 (Hpr c' Hc')) as [(m1 & _ & E1 & _ & Ed' & _)|(? & ? & ? & ? & _)]; [|congruence].
            assert (m1 = m') as -> by congruence. rewrite Ed, Ed' in Hle.
            apply under_spec in U as [[|y r'] Er].
            -- rewrite app_nil_r in Er. apply (Hdisj m' Hin).
               assert (m' = m) as -> by (apply h_dst_inj; [by apply Hsub|done|done]). left.
            -- rewrite Er in Hle. by rewrite path_cmp_above in Hle.
          * intros m' Hm' Ha. apply above_spec in Ha as [Ha Hne]. apply under_spec in Ha as [[|y r'] Er].
            { rewrite app_nil_r in Er. by rewrite Er in Hne. }
            assert (m' ∈ moves cs3) as Hin by (by rewrite (like_moves cs3 HL3)).
            apply elem_of_moves in Hin as (c' & Hc' & Emv'). rewrite El in Hc'.
            apply elem_of_app in Hc' as [Hc'|Hc']; [apply elem_of_moves; by exists c'|]. exfalso.
            apply elem_of_cons in Hc' as [-> |Hc'].
            { assert (m = m') as -> by congruence. done. }
            apply elem_of_list_split in Hc' as (p1 & p2 & Epost).
            assert (cs3 = (pr ++ c :: p1) ++ c' :: p2) as El' by (rewrite El, Epost; by rewrite <-app_assoc).
            pose proof (sorted_pre _ _ _ _ _ c sorted3 El' ltac:(set_solver)) as Hle. unfold by_destination in Hle.
            destruct (entry_like _ c' HL3 ltac:(rewrite El'; set_solver)) as [(m1 & _ & E1 & _ & Ed' & _)|(? & ? & ? & ? & _)]; [|congruence].
            assert (m1 = m') as -> by congruence. rewrite Ed, Ed', Er in Hle. by rewrite path_cmp_above in Hle.
          * eexists. rewrite (bind_ok _ _ _ tt) by (by rewrite H1). rewrite H1. cbn [o_res o_fs emit ret_]. split; [done|exact H2].
        + rewrite (attr_dset c n k u Hd). pose proof Hd as (Emv & [t' Eo] & Est & Hu & Hkn & Hk & Hkk & _ & Hms).
          rewrite Emv, app_nil_r.
          assert (n_perm n < 4096)%N as Hperm by (by eapply wf_perm).
          destruct (attr_step' (attrs pr) (moves pr) (c_dest c) (with_attrs n k) t) as [H1 H2]; [| |exact Hsub|exact Hperm|exact Ht|].
          * pose proof (attrs_loose (pr ++ [c])) as H. rewrite attrs_snoc, (attr_dset c n k u Hd) in H. apply H.
            intros c' Hc'. apply elem_of_app in Hc' as [Hc'|Hc']; [by apply Hpr|]. by apply elem_of_list_singleton in Hc' as ->.
          * intros Hin. apply elem_of_list_fmap in Hin as ([q n'] & E & Hin). simpl in E. subst q.
            apply elem_of_list_omap in Hin as (c' & Hc' & Ha).
            destruct (entry_like _ c' HL3 (Hpr c' Hc')) as [(m & _ & Emv' & _)|(n1 & k1 & u1 & Hd')].
            { by rewrite (attr_ren c' m Emv') in Ha. }
            rewrite (attr_dset c' n1 k1 u1 Hd') in Ha. injection Ha as E _.
            pose proof (like_dests cs3 HL3) as HND. rewrite El, fmap_app, fmap_cons in HND.
            apply NoDup_app in HND as (_ & HND & _). apply (HND (c_dest c)); [|left]. apply elem_of_list_fmap. by exists c'.
          * destruct Ht as (Hwt & _).
            assert (t !! c_dest c = Some k) as Htk by congruence.
            destruct (set_dir_perms t (c_dest c) u n k Hwt Htk Hkk Hkn Hperm) as [Hr1 Hr2].
            unfold accept_set. rewrite Eo, Est. rewrite d_is_file_of, d_is_symlink_of, d_is_dir_of, Hkn. cbn [is_kfile is_klink is_kdir].
            rewrite (bind_get_ok _ _ t true).
            2: { unfold exists_, is_dir. rewrite (stat_dom t (c_dest c) k) by (done || by rewrite Hkk). by rewrite Hkk. }
            cbv iota. rewrite (bind_ok _ _ _ tt) by done. cbn [o_res o_fs o_trace ret_].
            rewrite (bind_ok _ _ _ tt) by done. cbn [o_res o_fs ret_]. eexists. split; [done|]. rewrite Hr2. exact H2.
      - cbn [fmap list_fmap]. unfold attrs, moves. csimpl. by apply placing_init.
      - exists r. split; [done|]. rewrite (imap_pairs_snd cs3) in Hf. destruct Hf as (H1 & H2 & H3 & H4).
        pose proof (like_moves cs3 HL3) as HP. split; [done|]. split; [intros m r' Hm Hn; apply H2; [done|by rewrite HP]|].
        split; [done|]. intros q Hq Ht. eapply arranged_ext; [done| |apply H4; [done|]].
        + intros m _. by rewrite HP.
        + intros m Hm Hn. apply Ht; [done|]. by rewrite <-HP.
    Qed.
  End run.

  Definition staged_in (cs : list change) (q : path) : Prop := ∃ c d, c ∈ cs ∧ c_staged c = Some d ∧ under (d_path d) q = true.

  Lemma real_renames (cs : list change) : like cs →
    let o := accept_pass e 2 false cs f in
    (∃ r, o_res o = Ok r) ∧
    (∀ q, under ub q = false → (∀ c, c ∈ sel → move_of c = None → c_dest c ≠ q) → arranged f mv mv q (o_fs o !! q)) ∧
    (∀ c u n k, c ∈ sel → move_of c = None → c_staged c = Some (details_of u n) → f !! u = Some n → f !! c_dest c = Some k →
       o_fs o !! c_dest c = Some (with_attrs n k)) ∧
    (∀ q, under ub q = true → (staged_in sel q → o_fs o !! q = None) ∧ (¬ staged_in sel q → o_fs o !! q = f !! q)).
  Proof.
    intros HL. unfold accept_pass.
    set (l1 := sort_by by_reverse_source cs). assert (like l1) as HL1 by (by apply like_sort).
    destruct (moved_aside cs HL) as [Hm1 Hm2]. destruct (put_in_place cs HL _ Hm2) as (r3 & Hr3 & Hp).
    fold l1 in Hm1, Hm2, Hr3, Hp.
    set (cs2 := imap (assign_tmp e 2) (sort_by by_reverse_source l1)) in *. set (cs3 := sort_by by_destination cs2) in *.
    pose proof (HL3 cs HL) as HL3'. fold l1 cs2 cs3 in HL3'.
    rewrite (bind_ok _ _ _ (0, [])) by (by rewrite removes_skip). rewrite removes_skip by done. cbn [o_fs o_res o_trace].
    rewrite (bind_ok _ _ _ tt) by done. cbn [o_fs o_res o_trace]. rewrite (bind_ok _ _ _ r3) by done. cbn [o_fs o_res o_trace].
    set (s3 := o_fs (accum (imap (λ (i : nat) (c : change), (i, c)) cs3) (accept_set e 2 false) (o_fs (for_ cs2 (accept_premove false) f)))) in *.
    cbn [fst snd app].
    assert (r3.2 = mjoin ((λ ic : nat * change, match c_staged ic.2 with Some d => [d_path d] | None => [] end) <$> imap (λ i c, (i, c)) cs3)) as Er3.
    { eapply accum_paths; [|exact Hr3]. intros [i c] t r Hic Hr. cbn [snd].
      apply elem_of_lookup_imap in Hic as (i' & c' & [= -> ->] & Hi). assert (c' ∈ cs3) as Hc by (by eapply elem_of_list_lookup_2).
      unfold accept_set in Hr. destruct (entry_like _ c' HL3' Hc) as [(m & Hm & Emv & Eo & Ed & s & Es & Ep)|(n & k & u & _ & [t' Eo] & Est & _ & Hkn & _)].
      - rewrite Eo in Hr. destruct (c_tmp c') as [tm|]; [|done]. apply bind_inv in Hr as ([] & _ & Hr). by injection Hr as <-.
      - rewrite Eo, Est in Hr. rewrite d_is_file_of, d_is_symlink_of, d_is_dir_of, Hkn in Hr. cbn [is_kfile is_klink is_kdir] in Hr.
        apply bind_inv in Hr as (b & _ & Hr). apply bind_inv in Hr as ([] & _ & Hr). apply bind_inv in Hr as ([] & _ & Hr).
        injection Hr as <-. by rewrite Est. }
    assert (∀ p, p ∈ r3.2 ↔ ∃ c d, c ∈ sel ∧ c_staged c = Some d ∧ p = d_path d) as Hr3in.
    { intros p. rewrite Er3. rewrite elem_of_list_join. split.
      - intros (l & Hpl & Hl). apply elem_of_list_fmap in Hl as ([i c] & -> & Hic). cbn [snd] in Hpl.
        apply elem_of_lookup_imap in Hic as (i' & c' & [= -> ->] & Hi). apply elem_of_list_lookup_2 in Hi.
        destruct (like_in _ c' HL3' Hi) as (c0 & Hc0 & E). apply core_eq in E as (_ & _ & _ & E4). rewrite E4 in Hpl.
        destruct (c_staged c0) as [d|] eqn:Ed; [|by apply elem_of_nil in Hpl]. apply elem_of_list_singleton in Hpl as ->. by exists c0, d.
      - intros (c & d & Hc & Hst & ->).
        assert (core c ∈ core <$> cs3) as Hin. { unfold like in HL3'. rewrite HL3'. apply elem_of_list_fmap. by exists c. }
        apply elem_of_list_fmap in Hin as (c' & E & Hc'). apply core_eq in E as (_ & _ & _ & E4).
        exists [d_path d]. split; [left|]. apply elem_of_list_fmap.
        apply elem_of_list_lookup in Hc' as [i Hi]. exists (i, c'). cbn [snd]. rewrite <-E4, Hst. split; [done|].
        by apply elem_of_lookup_imap_2 with (f := λ i c, (i, c)). }
    pose proof Hp as (Hw3 & _ & Hp1 & Hp2).
    assert (∀ q n', (q, n') ∈ attrs cs3 → ∃ c n k, c ∈ sel ∧ c_dest c = q ∧ move_of c = None ∧ under ub q = false ∧ n' = with_attrs n k) as Hattr.
    { intros q n' Hin. apply elem_of_list_omap in Hin as (c & Hc & Ha).
      destruct (like_in _ c HL3' Hc) as (c0 & Hc0 & E). destruct (entry c c0 Hc0 E) as [(m & _ & Emv & _)|(n & k & u & Hd)].
      - by rewrite (attr_ren c m Emv) in Ha.
      - rewrite (attr_dset c n k u Hd) in Ha. injection Ha as <- <-. apply core_eq in E as (E1 & E2 & E3 & _).
        destruct Hd as (Emv & _ & _ & _ & _ & _ & _ & Hub & _). exists c0, n, k. split; [done|]. split; [by rewrite E1|]. split; [|done].
        rewrite <-Emv. unfold move_of. by rewrite E1, E2, E3. }
    assert (∀ q, under ub q = true → s3 !! q = f !! q) as Hub3.
    { intros q Hq. destruct (Hp2 q) as [_ H].
      - intros Hin. apply elem_of_list_fmap in Hin as ([q' n'] & -> & Hin). destruct (Hattr _ _ Hin) as (c & n & k & _ & _ & _ & E & _).
        cbn in Hq. congruence.
      - intros m Hm Hn. done.
      - destruct (mb_storage _ _ _ _ _ Hmb) as [_ Hsto]. rewrite H.
        + apply left_behind_out. intros m Hm. destruct (Hsto m Hm) as (H1 & H2 & _). destruct (under m.1 q) eqn:U; [|done].
          destruct (under_comparable _ _ _ U Hq); congruence.
        + intros m Hm. destruct (Hsto m Hm) as (_ & _ & H1 & H2). destruct (under m.2 q) eqn:U; [|done].
          destruct (under_comparable _ _ _ U Hq); congruence. }
    assert (∀ p, p ∈ r3.2 → is_Some (s3 !! p) ∧ ∃ r, r ≠ [] ∧ p = ub ++ r) as Hps.
    { intros p Hpi. apply Hr3in in Hpi as (c & d & Hc & Hst & ->).
      destruct (mb_staged _ _ _ _ _ Hmb c Hc) as (r & n & Hr & Hn & Hst' & _). rewrite Hst in Hst'. injection Hst' as ->. cbn [d_path details_of].
      split; [|by exists r]. rewrite Hub3 by apply under_app. by exists n. }
    assert (one_device s3 ub udev) as Hd3.
    { intros q n Hu Hn. rewrite Hub3 in Hn by done. by apply (Hud q n). }
    pose proof (clean_up_ok e ub udev s3 r3.2 He Hw3 Hd3 Hps) as Hclean.
    destruct (clean_pass e s3 r3.2 He Hw3 (λ p Hp, proj1 (Hps p Hp)) s3 eq_refl) as (_ & _ & Hcl).
    specialize (Hcl tt Hclean). destruct Hcl as [[Hw4 Hcl] Hgone].
    rewrite (bind_ok _ _ _ tt) by done. cbn [o_fs o_res ret_].
    set (s4 := o_fs (clean_up e r3.2 s3)) in *.
    assert (∀ q, under ub q = false → s4 !! q = s3 !! q) as Hout.
    { intros q Hq. destruct (Hcl q) as [|[_ (p & Hpi & Hu)]]; [done|]. exfalso. destruct (Hps p Hpi) as (_ & r & _ & ->).
      rewrite (under_trans _ _ _ (under_app ub r) Hu) in Hq. done. }
    split; [by eexists|]. split; [|split].
    - intros q Hq Hnd. rewrite Hout by done. apply Hp2.
      + intros Hin. apply elem_of_list_fmap in Hin as ([q' n'] & -> & Hin). destruct (Hattr _ _ Hin) as (c & n & k & Hc & Ed & Emv & _). by apply (Hnd c Hc Emv).
      + intros m Hm Hn. done.
    - intros c u n k Hc Emv Hst Hu Hk.
      destruct (entry c c Hc eq_refl) as [(m & _ & E & _)|(n1 & k1 & u1 & Hd)]; [congruence|].
      pose proof Hd as (_ & _ & Hst1 & Hu1 & _ & Hk1 & _ & Hub & _).
      assert (u1 = u) as -> by (rewrite Hst in Hst1; injection Hst1; done).
      assert (n1 = n) as -> by congruence. assert (k1 = k) as -> by congruence.
      rewrite Hout by done. apply Hp1. apply elem_of_list_omap.
      assert (core c ∈ core <$> cs3) as Hin. { unfold like in HL3'. rewrite HL3'. apply elem_of_list_fmap. by exists c. }
      apply elem_of_list_fmap in Hin as (c' & E & Hc'). exists c'. split; [done|].
      apply core_eq in E as (E1 & E2 & E3 & E4). unfold attr_of. 
      assert (move_of c' = None) as -> by (rewrite <-Emv; unfold move_of; by rewrite E1, E2, E3).
      rewrite <-E4, Hst, <-E1, Hk. cbn [d_path details_of]. by rewrite Hu.
    - intros q Hq. split.
      + intros (c & d & Hc & Hst & Hu). destruct (s4 !! q) as [x|] eqn:E; [|done]. exfalso.
        apply under_spec in Hu as [r ->]. destruct (wf_is_Some_prefix s4 (d_path d) r x Hw4 E) as [y Hy].
        rewrite (Hgone (d_path d)) in Hy; [done|]. apply Hr3in. by exists c, d.
      + intros Hn. rewrite <-(Hub3 q Hq). destruct (Hcl q) as [|[_ (p & Hpi & Hu)]]; [done|]. exfalso. apply Hn.
        apply Hr3in in Hpi as (c & d & Hc & Hst & ->). by exists c, d.
  Qed.
End accept.

(** ** The theorems *)
Theorem C27_renames_accepted_partial : ∀ e f ub dev udev inc pats sel, wf_tree f → env_ok e →
  selected e f ub inc pats = Ok sel → sel ≠ [] → movable e f ub dev sel → one_device f ub udev →
  let o := accept e ub inc pats f in
  is_ok (o_res o) = true ∧
  (** every path of the host holds what it should after the moves *)
  (∀ q, under ub q = false → (∀ c, c ∈ sel → move_of c = None → c_dest c ≠ q) →
     arranged f (moves sel) (moves sel) q (o_fs o !! q)) ∧
  (** directories that were not renamed get the attributes they have in the sandbox *)
  (∀ c u n k, c ∈ sel → move_of c = None → c_staged c = Some (details_of u n) → f !! u = Some n → f !! c_dest c = Some k →
     o_fs o !! c_dest c = Some (with_attrs n k)) ∧
  (** exactly what was accepted leaves the storage *)
  (∀ q, under ub q = true → (staged_in sel q → o_fs o !! q = None) ∧ (¬ staged_in sel q → o_fs o !! q = f !! q)).
Proof.
  intros e f ub dev udev inc pats sel Hwf He Hsel Hne Hmb Hud. cbv zeta.
  unfold selected in Hsel. destruct (changes e f ub inc) as [all|] eqn:Eall; [|done]. cbn [rbind] in Hsel. injection Hsel as Hsel.
  unfold accept. rewrite (bind_get_ok _ _ f all) by done. rewrite Hsel.
  destruct sel as [|c0 sel0]; [done|]. set (sel := c0 :: sel0) in *.
  destruct (dry_run e f ub dev udev sel Hwf He Hmb Hud sel) as (r1 & Hr1 & HL); [unfold like; reflexivity|].
  rewrite (bind_ok _ _ _ r1) by done. cbn [o_res o_fs].
  pose proof (pure_pretend e 0 sel f) as [_ Hpf]. rewrite Hpf.
  destruct (real_renames e f ub dev udev sel Hwf He Hmb Hud r1.2 HL) as ((r2 & Hr2) & H1 & H2 & H3).
  rewrite (bind_ok _ _ _ r2) by done. cbn [o_res o_fs ret_]. done.
Qed.
Print Assumptions C27_renames_accepted_partial.

(** *** The hypotheses are met: a directory renamed into another one, with both parents copied up
    (one of them with a changed mode and owner), and two directories that swapped names. *)
Definition swap_fs : fs := list_to_map
  [ ([], dir0); (["home"], dir0); (["p"], dir0); (["p"; "d"], dir0); (["p"; "d"; "f"], file_ "1"); (["q"], dir0);
    (["x"], dir0); (["x"; "in"], file_ "x"); (["y"], dir0); (["y"; "in"], dir0); (["y"; "in"; "k"], file_ "y");
    (["sbx"], dir0); (["sbx"; "up"], dir0); (["sbx"; "up"; "F4"], dir0);
    (["sbx"; "up"; "F4"; "p"], mk KDir 448 5); (["sbx"; "up"; "F4"; "p"; "d"], wh);
    (["sbx"; "up"; "F4"; "q"], dir0); (["sbx"; "up"; "F4"; "q"; "e"], rdir "/p/d");
    (["sbx"; "up"; "F4"; "x"], rdir "y"); (["sbx"; "up"; "F4"; "y"], rdir "x") ].
Definition swap_sel : list change :=
  match selected demo_env swap_fs demo_ub true ["/"] with Ok l => l | Err _ => [] end.
Lemma swap_moves : moves swap_sel = [(["p"; "d"], ["q"; "e"]); (["y"], ["x"]); (["x"], ["y"])].
Proof. vm_compute. reflexivity. Qed.
Lemma swap_wf : wf_tree swap_fs.
Proof. apply wf_treeb_spec. vm_compute. reflexivity. Qed.

Lemma arranged_left (f : fs) (mv : list (path * path)) (q : path) (t : option node) :
  left_behind f mv q = t → arranged f mv [] q t.
Proof. intros <-. split; [|done]. intros m r _ [H _]. by apply elem_of_nil in H. Qed.

Lemma swap_movable : movable demo_env swap_fs demo_ub 1 swap_sel.
Proof.
  split.
  - let l := eval vm_compute in swap_sel in change swap_sel with l.
    intros c Hc. repeat (apply elem_of_cons in Hc as [-> |Hc]); [.. | by apply elem_of_nil in Hc].
    + exists ["F4"; "q"; "e"], (rdir "/p/d"). repeat split; vm_compute; done.
    + exists ["F4"; "p"], (mk KDir 448 5). repeat split; vm_compute; done.
    + exists ["F4"; "q"], dir0. repeat split; vm_compute; done.
    + exists ["F4"; "x"], (rdir "y"). repeat split; vm_compute; done.
    + exists ["F4"; "y"], (rdir "x"). repeat split; vm_compute; done.
  - rewrite swap_moves. let l := eval vm_compute in swap_sel in change swap_sel with l.
    intros c Hc. repeat (apply elem_of_cons in Hc as [-> |Hc]); [.. | by apply elem_of_nil in Hc].
    1, 4, 5: left; vm_compute; eexists; reflexivity.
    1, 2: right; (split; [eexists; reflexivity|]); (split; [exists dir0; split; vm_compute; reflexivity|]);
      (split; [vm_compute; reflexivity|]); intros m Hm; repeat (apply elem_of_cons in Hm as [-> |Hm]);
      [split; vm_compute; reflexivity .. | by apply elem_of_nil in Hm].
  - apply (bool_decide_unpack _). vm_compute. exact I.
  - apply (bool_decide_unpack _). vm_compute. exact I.
  - rewrite swap_moves. intros m Hm. repeat (apply elem_of_cons in Hm as [-> |Hm]); [.. | by apply elem_of_nil in Hm].
    all: (split; [discriminate|]); (split; [vm_compute; reflexivity|]); exists dir0; repeat split; vm_compute; reflexivity.
  - rewrite swap_moves. intros m Hm. repeat (apply elem_of_cons in Hm as [-> |Hm]); [.. | by apply elem_of_nil in Hm].
    + exists ["q"], "e", dir0. split; [reflexivity|]. split; [apply comp_okb_spec; vm_compute; reflexivity|].
      do 2 (split; [vm_compute; reflexivity|]).
      match goal with |- arranged _ _ ?l _ _ ∧ _ => assert (l = []) as -> by (vm_compute; reflexivity) end.
      split; apply arranged_left; vm_compute; reflexivity.
    + exists [], "x", dir0. split; [reflexivity|]. split; [apply comp_okb_spec; vm_compute; reflexivity|].
      do 2 (split; [vm_compute; reflexivity|]).
      match goal with |- arranged _ _ ?l _ _ ∧ _ => assert (l = []) as -> by (vm_compute; reflexivity) end.
      split; apply arranged_left; vm_compute; reflexivity.
    + exists [], "y", dir0. split; [reflexivity|]. split; [apply comp_okb_spec; vm_compute; reflexivity|].
      do 2 (split; [vm_compute; reflexivity|]).
      match goal with |- arranged _ _ ?l _ _ ∧ _ => assert (l = []) as -> by (vm_compute; reflexivity) end.
      split; apply arranged_left; vm_compute; reflexivity.
  - exists []. split; [vm_compute; reflexivity|]. rewrite swap_moves.
    intros m Hm. repeat (apply elem_of_cons in Hm as [-> |Hm]); [.. | by apply elem_of_nil in Hm];
      split; vm_compute; reflexivity.
  - exists dir0. repeat split; vm_compute; reflexivity.
  - rewrite swap_moves. intros m Hm. repeat (apply elem_of_cons in Hm as [-> |Hm]); [.. | by apply elem_of_nil in Hm];
      split; vm_compute; reflexivity.
  - split; [vm_compute; reflexivity|]. rewrite swap_moves.
    intros m Hm. repeat (apply elem_of_cons in Hm as [-> |Hm]); [.. | by apply elem_of_nil in Hm];
      repeat split; vm_compute; reflexivity.
  - rewrite swap_moves. intros ph i m Hm. cbn [e_uuid demo_env].
    repeat (apply elem_of_cons in Hm as [-> |Hm]); [.. | by apply elem_of_nil in Hm].
    all: (split; [vm_compute; reflexivity|]); (split; [vm_compute; reflexivity|]);
      intros m' Hm'; repeat (apply elem_of_cons in Hm' as [-> |Hm']); [vm_compute; reflexivity .. | by apply elem_of_nil in Hm'].
  - rewrite swap_moves. intros i j m m' Hm Hm' Hne _. cbn [e_uuid demo_env].
    repeat (apply elem_of_cons in Hm as [-> |Hm]); [.. | by apply elem_of_nil in Hm].
    all: repeat (apply elem_of_cons in Hm' as [-> |Hm']); [.. | by apply elem_of_nil in Hm']; try (by destruct Hne).
    all: vm_compute; discriminate.
Qed.
Example C27_nonvacuous : selected demo_env swap_fs demo_ub true ["/"] = Ok swap_sel ∧ swap_sel ≠ [] ∧
  wf_tree swap_fs ∧ env_ok demo_env ∧ one_device swap_fs demo_ub 1 ∧ movable demo_env swap_fs demo_ub 1 swap_sel.
Proof.
  split; [vm_compute; reflexivity|]. split; [vm_compute; discriminate|].
  split; [exact swap_wf|]. split; [exact demo_env_ok|].
  split; [apply one_deviceb_spec; vm_compute; reflexivity|exact swap_movable].
Qed.
(** Running the model on it: the trees are where they should be. *)
Example C27_run : let o := accept demo_env demo_ub true ["/"] swap_fs in
  is_ok (o_res o) = true ∧ o_fs o !! ["q"; "e"; "f"] = Some (file_ "1") ∧ o_fs o !! ["p"; "d"] = None ∧
  o_fs o !! ["x"; "in"; "k"] = Some (file_ "y") ∧ o_fs o !! ["y"; "in"] = Some (file_ "x").
Proof. vm_compute. repeat split; reflexivity. Qed.

(** *** One rename, in plain terms *)
Theorem C27_one_rename_partial : ∀ e f ub dev udev inc pats sel c s, wf_tree f → env_ok e →
  selected e f ub inc pats = Ok sel → movable e f ub dev sel → one_device f ub udev →
  (** the only rename is the one of [s] to [c_dest c] *)
  c ∈ sel → moves sel = [(s, c_dest c)] →
  let o := accept e ub inc pats f in
  is_ok (o_res o) = true ∧
  (∀ r, o_fs o !! (c_dest c ++ r) = f !! (s ++ r)) ∧
  (s ≠ c_dest c → ∀ r, o_fs o !! (s ++ r) = None) ∧
  (∀ q, under ub q = false → (∀ c', c' ∈ sel → c_dest c' ≠ q) → under s q = false → under (c_dest c) q = false →
     o_fs o !! q = f !! q).
Proof.
  intros e f ub dev udev inc pats sel c s Hwf He Hsel Hmb Hud Hc Hmv. cbv zeta.
  destruct (C27_renames_accepted_partial e f ub dev udev inc pats sel Hwf He Hsel ltac:(by intros ->; apply elem_of_nil in Hc) Hmb Hud)
    as (Hok & Hq & Hd & _).
  set (o := accept e ub inc pats f) in *. rewrite Hmv in Hq.
  assert ((s, c_dest c) ∈ moves sel) as Hin by (rewrite Hmv; left).
  pose proof (proj2 (mb_storage _ _ _ _ _ Hmb) _ Hin) as (Hs1 & Hs2 & Hd1 & Hd2). cbn [fst snd] in *.
  assert (∀ c', c' ∈ sel → move_of c' = None → under s (c_dest c') = false ∧ under (c_dest c) (c_dest c') = false) as Hset.
  { intros c' Hc' Emv. destruct (mb_kinds _ _ _ _ _ Hmb c' Hc') as [[m Em]|(_ & _ & _ & H)]; [congruence|]. apply (H _ Hin). }
  assert (∀ p q : path, under p q = true → under ub q = true → under ub p = true ∨ under p ub = true) as Htri.
  { intros p q H1 H2. destruct (under_comparable p ub q H1 H2); [by right|by left]. }
  split; [done|]. split; [|split].
  - intros r. destruct (Hq (c_dest c ++ r)) as [H _].
    + destruct (under ub (c_dest c ++ r)) eqn:E; [|done]. exfalso.
      destruct (Htri (c_dest c) _ (under_app _ _) E); congruence.
    + intros c' Hc' Emv E. destruct (Hset c' Hc' Emv) as [_ H]. rewrite E, under_app in H. done.
    + rewrite (H (s, c_dest c) r eq_refl).
      * cbn [fst]. destruct (carried_cases f [(s, c_dest c)] s r) as [(m & Hm & Ha & _)|[_ ->]]; [|done].
        apply elem_of_list_singleton in Hm as ->. cbn in Ha. by apply above_spec in Ha as [_ []].
      * split; [left|]. split; [apply under_app|]. intros m' Hm' _. apply elem_of_list_singleton in Hm' as ->. apply under_refl.
  - intros Hnsd r.
    assert (under (c_dest c) (s ++ r) = false) as Hn.
    { destruct (mb_free _ _ _ _ _ Hmb _ Hin) as (p & x & k & Ed & _ & _ & _ & Hp & Hf). cbn [snd] in *.
      assert (filter (λ m', above m'.2 (c_dest c) = true) (moves sel) = []) as Efl.
      { rewrite Hmv. rewrite filter_cons_False; [done|]. cbn [snd]. intros Ha. by apply above_spec in Ha as [_ []]. }
      rewrite Efl in Hp, Hf. destruct Hp as [_ Hp], Hf as [_ Hf].
      specialize (Hp ltac:(intros m Hm; by apply elem_of_nil in Hm)). specialize (Hf ltac:(intros m Hm; by apply elem_of_nil in Hm)).
      destruct (under (c_dest c) (s ++ r)) eqn:Eu; [|done]. exfalso.
      destruct (mb_source _ _ _ _ _ Hmb _ Hin) as (_ & _ & k' & Hk' & _). cbn [fst] in Hk'.
      rewrite Hmv in Hp, Hf.
      assert (under s (c_dest c) = false) as Hsd.
      { destruct (under s (c_dest c)) eqn:E; [|done]. exfalso. rewrite Ed in E. apply under_snoc in E as [E|E].
        - apply Hnsd. by rewrite Ed.
        - rewrite (left_behind_in _ _ (s, c_dest c) p) in Hp by (done || left). done. }
      destruct (under_comparable _ _ _ Eu (under_app s r)) as [E|E]; [|congruence].
      rewrite left_behind_out in Hf by (intros m Hm; by apply elem_of_list_singleton in Hm as ->).
      apply under_spec in E as [r' Es]. rewrite Es in Hk'. destruct (wf_is_Some_prefix f _ _ _ Hwf Hk') as [y Hy]. congruence. }
    destruct (Hq (s ++ r)) as [_ H].
    + destruct (under ub (s ++ r)) eqn:E; [|done]. exfalso. destruct (Htri s _ (under_app _ _) E); congruence.
    + intros c' Hc' Emv E. destruct (Hset c' Hc' Emv) as [H _]. rewrite E, under_app in H. done.
    + rewrite H; [apply (left_behind_in _ _ (s, c_dest c)); [left|apply under_app]|].
      intros m Hm. by apply elem_of_list_singleton in Hm as ->.
  - intros q Hu Hne Hs Hdq. destruct (Hq q Hu) as [_ H].
    + intros c' Hc' _. by apply Hne.
    + rewrite H; [apply left_behind_out|]; intros m Hm; by apply elem_of_list_singleton in Hm as ->.
Qed.
Print Assumptions C27_one_rename_partial.

(** ** What does not hold *)
(** The plain reading: the sandbox contains one renamed directory and nothing else (the new
    directory, with the redirect to the old one, and the whiteout of the old one), and everything
    is accepted. *)
Definition renamed_only (f : fs) (ub s d : path) (n : node) : Prop :=
  storage_ok f ub [[]] ∧ staged_at f ub [] d n ∧ n_kind n = KDir ∧ is_Some (redirect n) ∧ kernel_source f ub [] d = s ∧
  staged_at f ub [] s wh ∧ (∀ d' n', staged_at f ub [] d' n' → d' = d ∨ d' = s) ∧
  (∃ k, f !! s = Some k ∧ n_kind k = KDir) ∧
  under ub s = false ∧ under s ub = false ∧ under ub d = false ∧ under d ub = false.

(** The temporary names are new and the current directory is a directory elsewhere. *)
Definition elsewhere (e : env) (f : fs) (s d : path) : Prop :=
  (∀ ph i, e_uuid e ph i ≠ "" ∧ contains "/" (e_uuid e ph i) = false) ∧
  (∀ ph i q x, is_Some (f !! (q ++ [x])) → ends_with (e_uuid e ph i) x = false) ∧
  (∃ k, f !! e_cwd e = Some k ∧ n_kind k = KDir) ∧ under s (e_cwd e) = false ∧ under d (e_cwd e) = false.

Definition C27_full : Prop := ∀ e f ub s d n dev, wf_tree f → env_ok e → elsewhere e f s d → renamed_only f ub s d n →
  (∀ q k, f !! q = Some k → n_dev k = dev) →
  let o := accept e ub true ["/"] f in
  is_ok (o_res o) = true ∧ (∀ r, o_fs o !! (d ++ r) = f !! (s ++ r)) ∧ o_fs o !! s = None.

(** In the sandbox: [rm -r /a; mv /b /a]. *)
Definition onto_fs : fs := list_to_map
  [ ([], dir0); (["home"], dir0); (["a"], dir0); (["a"; "f"], file_ "1"); (["b"], dir0); (["b"; "g"], file_ "2");
    (["sbx"], dir0); (["sbx"; "up"], dir0); (["sbx"; "up"; "F4"], dir0);
    (["sbx"; "up"; "F4"; "a"], rdir "b"); (["sbx"; "up"; "F4"; "b"], wh) ].

Definition elsewhereb (f : fs) (u : string) : bool :=
  on_fs f (λ k _, match last k with Some c => negb (ends_with u c) | None => true end).
Lemma elsewhereb_spec (f : fs) (s d : path) (k : node) : elsewhereb f "uuid" = true → f !! ["home"] = Some k → n_kind k = KDir →
  under s ["home"] = false → under d ["home"] = false → elsewhere demo_env f s d.
Proof.
  intros H Hk Hd H1 H2. split; [by intros ph i; split|]. split; [|split; [by exists k|done]].
  intros ph i q x [n Hn]. apply (on_fs_spec _ _ H) in Hn. rewrite last_snoc in Hn. by apply negb_true_iff in Hn.
Qed.
Lemma onto_renamed : renamed_only onto_fs demo_ub ["b"] ["a"] (rdir "b").
Proof.
  split; [apply storage_okb_spec; vm_compute; reflexivity|].
  split; [split; [discriminate|vm_compute; reflexivity]|].
  split; [reflexivity|]. split; [exists "b"; vm_compute; reflexivity|]. split; [vm_compute; reflexivity|].
  split; [split; [discriminate|vm_compute; reflexivity]|]. split.
  { intros d' n' Hs.
    assert (on_staged onto_fs demo_ub [[]] (λ m s n, bool_decide (s = ["a"]) || bool_decide (s = ["b"])) = true) as Hc by (vm_compute; reflexivity).
    pose proof (on_staged_spec _ _ _ _ Hc [] d' n' ltac:(left) Hs) as H. cbv beta in H.
    apply orb_true_iff in H as [H|H]; apply bool_decide_eq_true in H; [by left|by right]. }
  split; [exists dir0; split; vm_compute; reflexivity|]. repeat split; vm_compute; reflexivity.
Qed.
Lemma onto_hyps : wf_tree onto_fs ∧ elsewhere demo_env onto_fs ["b"] ["a"] ∧ (∀ q k, onto_fs !! q = Some k → n_dev k = 1%N).
Proof.
  split; [apply wf_treeb_spec; vm_compute; reflexivity|]. split.
  - apply (elsewhereb_spec _ _ _ dir0); vm_compute; reflexivity.
  - intros q k Hk. assert (on_fs onto_fs (λ _ n, N.eqb (n_dev n) 1) = true) as Hc by (vm_compute; reflexivity).
    apply (on_fs_spec _ _ Hc) in Hk. by apply N.eqb_eq.
Qed.
Theorem C27_refuted : ¬ C27_full.
Proof.
  intros H. destruct onto_hyps as (H1 & H2 & H3).
  destruct (H demo_env onto_fs demo_ub ["b"] ["a"] (rdir "b") 1%N H1 demo_env_ok H2 onto_renamed H3) as [Hok _].
  vm_compute in Hok. discriminate.
Qed.
Print Assumptions C27_refuted.
(** The dry run passes and the directory is then left under the temporary name. *)
Example C27_lost_place : let o := accept demo_env demo_ub true ["/"] onto_fs in
  o_res o = Err ENOTEMPTY ∧ o_fs o !! ["b"] = None ∧ o_fs o !! ["a"; "f"] = Some (file_ "1") ∧
  o_fs o !! ["home"; ".rename-b-to-a-uuid"; "g"] = Some (file_ "2").
Proof. vm_compute. repeat split; reflexivity. Qed.

(** Even for a free destination the attributes the directory was given in the sandbox are lost:
    [mv /b /a; chmod 700 /a; chown 5:5 /a]. *)
Definition C27_attributes_full : Prop := ∀ e f ub s d n dev, wf_tree f → env_ok e → elsewhere e f s d → renamed_only f ub s d n →
  (∀ q k, f !! q = Some k → n_dev k = dev) → f !! d = None →
  let o := accept e ub true ["/"] f in
  is_ok (o_res o) = true → ∃ k, o_fs o !! d = Some k ∧ n_perm k = n_perm n ∧ n_uid k = n_uid n ∧ n_gid k = n_gid n.
Definition chmod_node : node := Node KDir 448 5 5 1 {[ "trusted.overlay.redirect" := "b" ]}.
Definition chmod_fs : fs := list_to_map
  [ ([], dir0); (["home"], dir0); (["b"], dir0); (["b"; "g"], file_ "2");
    (["sbx"], dir0); (["sbx"; "up"], dir0); (["sbx"; "up"; "F4"], dir0);
    (["sbx"; "up"; "F4"; "a"], chmod_node); (["sbx"; "up"; "F4"; "b"], wh) ].
Lemma chmod_renamed : renamed_only chmod_fs demo_ub ["b"] ["a"] chmod_node.
Proof.
  split; [apply storage_okb_spec; vm_compute; reflexivity|].
  split; [split; [discriminate|vm_compute; reflexivity]|].
  split; [reflexivity|]. split; [exists "b"; vm_compute; reflexivity|]. split; [vm_compute; reflexivity|].
  split; [split; [discriminate|vm_compute; reflexivity]|]. split.
  { intros d' n' Hs.
    assert (on_staged chmod_fs demo_ub [[]] (λ m s n, bool_decide (s = ["a"]) || bool_decide (s = ["b"])) = true) as Hc by (vm_compute; reflexivity).
    pose proof (on_staged_spec _ _ _ _ Hc [] d' n' ltac:(left) Hs) as H. cbv beta in H.
    apply orb_true_iff in H as [H|H]; apply bool_decide_eq_true in H; [by left|by right]. }
  split; [exists dir0; split; vm_compute; reflexivity|]. repeat split; vm_compute; reflexivity.
Qed.
Theorem C27_attributes_refuted : ¬ C27_attributes_full.
Proof.
  intros H.
  assert (wf_tree chmod_fs) as H1 by (apply wf_treeb_spec; vm_compute; reflexivity).
  assert (elsewhere demo_env chmod_fs ["b"] ["a"]) as H2 by (apply (elsewhereb_spec _ _ _ dir0); vm_compute; reflexivity).
  assert (∀ q k, chmod_fs !! q = Some k → n_dev k = 1%N) as H3.
  { intros q k Hk. assert (on_fs chmod_fs (λ _ n, N.eqb (n_dev n) 1) = true) as Hc by (vm_compute; reflexivity).
    apply (on_fs_spec _ _ Hc) in Hk. by apply N.eqb_eq. }
  pose proof (H demo_env chmod_fs demo_ub ["b"] ["a"] chmod_node 1%N H1 demo_env_ok H2 chmod_renamed H3) as H4. cbv zeta in H4.
  destruct H4 as (k & Hk & Hp & _); [vm_compute; reflexivity|vm_compute; reflexivity|].
  vm_compute in Hk. injection Hk as <-. vm_compute in Hp. discriminate.
Qed.
Print Assumptions C27_attributes_refuted.
