(** * Installing one object: what accept.rs:276-370 does when nothing is in the way *)
From Verif Require Export Props_Rename.

Lemma finish_like (k n : node) (u : path) : n_kind k = n_kind n → (n_perm n < 4096)%N →
  same_entry n (finish k (details_of u n)).
Proof.
  intros Hk Hp. unfold finish. cbn [d_mode d_uid d_gid details_of]. rewrite mode_type. unfold same_entry.
  assert ((kind_type (n_kind n) =? S_IFLNK)%N = is_klink (n_kind n)) as -> by (by destruct (n_kind n)).
  destruct (is_klink (n_kind n)) eqn:El; cbn.
  - done.
  - rewrite Hk. repeat (split; [done|]). intros _. rewrite mode_perm. unfold o7777.
    change 4095%N with (N.ones 12). rewrite N.land_ones. symmetry. by apply N.mod_small.
Qed.
Lemma finish_dev (k : node) (d : details) : n_dev (finish k d) = n_dev k.
Proof. unfold finish. by destruct (_ =? _)%N. Qed.
Lemma finish_kind (k : node) (d : details) : n_kind (finish k d) = n_kind k.
Proof. unfold finish. by destruct (_ =? _)%N. Qed.

Lemma dirpath_insert (g : fs) (q : path) (k : node) : dirpath g q → dirpath (<[q := k]> g) q.
Proof.
  intros Hd a y r E. destruct (Hd a y r E) as [(d & Hdq & Hdk) Hy]. split; [|done].
  exists d. split; [|done]. rewrite lookup_insert_ne; [done|]. rewrite E. by apply snoc_ne_self.
Qed.

Lemma perms_ok (g : fs) (q u : path) (n k : node) : dirpath g q → g !! q = Some k →
  (is_klink (n_kind k) = true → is_klink (n_kind n) = true) →
  o_res (set_permissions q (details_of u n) g) = Ok tt ∧
  o_fs (set_permissions q (details_of u n) g) = <[q := finish k (details_of u n)]> g.
Proof.
  intros Hd Hk Hlk. unfold set_permissions, finish.
  rewrite (bind_ok _ _ _ tt) by (by rewrite (lchown_ok g _ k)). cbn [o_res o_fs].
  rewrite (lchown_ok g _ k) by done. cbn [o_fs emit].
  destruct (N.land (d_mode (details_of u n)) S_IFMT =? S_IFLNK)%N eqn:Elk; [done|].
  erewrite lchmod_ok; [|by apply dirpath_insert|by rewrite lookup_insert|].
  - cbn [o_res o_fs emit]. by rewrite insert_insert.
  - cbn. destruct (is_klink (n_kind k)) eqn:E; [|done]. exfalso. cbn in Elk. rewrite mode_type in Elk.
    specialize (Hlk eq_refl). by destruct (n_kind n).
Qed.

(** What may be in the way of an object of kind [n]. *)
Definition in_the_way (n : node) (old : option node) : Prop :=
  match old with
  | None => False
  | Some k => n_kind n ≠ KDir ∧ n_kind k = KDir ∨ n_kind n = KDir ∧ n_kind k ≠ KDir
  end.

Lemma set_ok (e : env) (ph i : nat) (c : change) (g : fs) (ty : set_type) (u p : path) (x : string) (n : node) :
  wf_tree g → c_op c = OSet ty → c_staged c = Some (details_of u n) → g !! u = Some n → supported n = true →
  c_dest c = p ++ [x] → comp_ok x → is_dir_at g p → ¬ in_the_way n (g !! c_dest c) →
  (is_kfile (n_kind n) = true → e_uuid e (S ph) i ≠ "" ∧ contains "/" (e_uuid e (S ph) i) = false ∧
     g !! with_extension (c_dest c) (e_uuid e (S ph) i) = None ∧ with_extension (c_dest c) (e_uuid e (S ph) i) ≠ c_dest c) →
  ∃ r n', o_res (accept_set e ph false (i, c) g) = Ok r ∧ r.2 = [u] ∧
    o_fs (accept_set e ph false (i, c) g) = <[c_dest c := n']> g ∧ same_entry n n' ∧ wf_tree (<[c_dest c := n']> g) ∧
    n_dev n' = match g !! c_dest c with Some k => if is_kdir (n_kind k) then n_dev k else parent_dev g (c_dest c) | None => parent_dev g (c_dest c) end.
Proof.
  intros Hwf Eop Est Hu Hsup Ed Hx Hpar Hway Htmp.
  assert (n_perm n < 4096)%N as Hperm by (by eapply wf_perm).
  assert (dirpath g (c_dest c)) as Hdp by (rewrite Ed; by apply dirpath_snoc).
  assert (c_dest c ≠ []) as Hne0 by (rewrite Ed; by destruct p).
  assert (n_kind n ≠ KDir → below g (c_dest c) = []) as Hbelow.
  { intros Hnd. apply below_nil. intros r Hr. destruct (g !! (c_dest c ++ r)) as [k|] eqn:Ek; [|done]. exfalso.
    destruct (wf_prefix g _ _ _ Hwf Ek Hr) as (d & Hd & Hdk). apply Hway. rewrite Hd. left. done. }
  assert (∀ n', n_kind n' = n_kind n → (n_perm n' < 4096)%N → wf_tree (<[c_dest c := n']> g)) as Hwf'.
  { intros n' Hk' Hp'. apply wf_insert; [done|done|done|]. destruct (decide (n_kind n = KDir)) as [E|E].
    - left. congruence.
    - right. split; [done|]. by apply Hbelow. }
  assert (∀ k, n_kind k = n_kind n → (n_perm k < 4096)%N → (n_perm (finish k (details_of u n)) < 4096)%N) as Hfp.
  { intros k Hk Hp. destruct (finish_like k n u Hk Hperm) as (_ & _ & _ & Hs). destruct (is_klink (n_kind n)) eqn:E.
    - unfold finish. cbn [d_mode details_of]. rewrite mode_type.
      assert ((kind_type (n_kind n) =? S_IFLNK)%N = true) as -> by (by destruct (n_kind n)). cbn.
      by apply chown_perm_lt.
    - by rewrite <-(Hs eq_refl). }
  (* the last step *)
  assert (∀ t k (v : nat), dirpath t (c_dest c) → t !! c_dest c = Some k → n_kind k = n_kind n →
     (∃ n0, t = <[c_dest c := n0]> g) →
     let m := (set_permissions (c_dest c) (details_of u n) ;;; ret_ (v, [u])) t in
     o_res m = Ok (v, [u]) ∧ o_fs m = <[c_dest c := finish k (details_of u n)]> g) as Hlast.
  { intros t k v Hd Hk Hkk [n0 Et]. destruct (perms_ok t (c_dest c) u n k Hd Hk) as [H1 H2]; [by rewrite Hkk|].
    cbv zeta. rewrite (bind_ok _ _ _ tt) by done. cbn [o_res o_fs ret_]. split; [done|]. rewrite H2, Et. by rewrite insert_insert. }
  unfold accept_set. rewrite Eop, Est, d_is_file_of, d_is_symlink_of, d_is_dir_of. cbn [d_path details_of].
  set (v := if is_actually_modified c then 1 else 0).
  destruct (n_kind n) as [content| |tg| | | |] eqn:Ekn; cbn [is_kfile is_kdir is_klink]; try by (unfold supported in Hsup; rewrite Ekn in Hsup).
  - (* regular file *)
    destruct (Htmp eq_refl) as (Hu1 & Hu2 & Hgt & Hne). set (tmp := with_extension (c_dest c) (e_uuid e (S ph) i)) in *.
    assert (tmp = p ++ [file_stem x +:+ "." +:+ e_uuid e (S ph) i]) as Etmp by (unfold tmp; by rewrite Ed, with_extension_snoc).
    assert (dirpath g tmp) as Hdt.
    { rewrite Etmp. apply dirpath_snoc; [done|done|]. by apply tmp_comp_ok. }
    assert (stat g u = Ok n) as Hstat by (apply stat_dom; [done|done|by rewrite Ekn]).
    pose proof (copy_ok (e_umask e) g u tmp n content Hdt Hgt Hstat Ekn) as Hcopy.
    rewrite (bind_ok _ _ _ tt) by (by rewrite Hcopy). rewrite Hcopy. cbn [o_res o_fs o_trace].
    set (nf := copy_final (e_umask e) g n content tmp).
    assert (nf = Node (KFile content) (n_perm n) 0 0 (parent_dev g tmp) ∅) as Enf.
    { unfold nf, copy_final, copy_base. by rewrite Hgt. }
    assert (under tmp (c_dest c) = false ∧ under (c_dest c) tmp = false) as [U1 U2].
    { rewrite Ed, Etmp in *. split; apply siblings; congruence. }
    assert (∀ q y r, tmp = q ++ y :: r → q ≠ tmp) as Hpt.
    { intros q y r E E'. rewrite E' in E. symmetry in E. by apply snoc_ne_self in E. }
    assert (∀ q, removelast q = p → parent_dev (<[tmp := nf]> g) q = parent_dev g q) as Hpd.
    { intros q Hq. unfold parent_dev. rewrite Hq. rewrite lookup_insert_ne; [done|]. rewrite Etmp. intros E. by apply snoc_ne_self in E. }
    assert (removelast tmp = p) as Ert by (rewrite Etmp; by rewrite removelast_snoc).
    assert (removelast (c_dest c) = p) as Erd by (rewrite Ed; by rewrite removelast_snoc).
    assert (dirpath (<[tmp := nf]> g) (c_dest c)) as Hdp1.
    { intros q y r E. destruct (Hdp q y r E) as [(d & Hdq & Hdk) Hy]. split; [|done].
      exists d. split; [|done]. rewrite lookup_insert_ne; [done|]. intros E'. rewrite <-E' in E.
      rewrite E, under_app in U1. done. }
    assert (sys_rename tmp (c_dest c) (<[tmp := nf]> g) = emit (moved (<[tmp := nf]> g) tmp (c_dest c))) as Hren.
    { apply (rename_ok _ _ _ nf); try done.
      - by apply dirpath_insert.
      - by rewrite lookup_insert.
      - rewrite !Hpd by done. unfold parent_dev. by rewrite Ert, Erd.
      - rewrite Hpd by done. by rewrite Enf.
      - rewrite lookup_insert_ne by done. destruct (g !! c_dest c) as [k|] eqn:Ek; [|done].
        rewrite Enf. cbn. split; [done|]. destruct (is_kdir (n_kind k)) eqn:Ekd; [|done]. exfalso.
        apply is_kdir_true in Ekd. apply Hway. left. rewrite Ekn. done. }
    rewrite (bind_ok _ _ _ tt) by (by rewrite Hren). rewrite Hren. cbn [o_res o_fs o_trace emit].
    assert (moved (<[tmp := nf]> g) tmp (c_dest c) = <[c_dest c := nf]> g) as Emv.
    { apply map_eq. intros q. rewrite lookup_moved by done. destruct (path_strip (c_dest c) q) as [r|] eqn:Er.
      - apply path_strip_spec in Er as ->. destruct r as [|y r].
        + rewrite !app_nil_r, !lookup_insert. done.
        + rewrite lookup_insert_ne by (intros E; symmetry in E; by apply snoc_ne_self in E).
          rewrite lookup_insert_ne by (intros E; symmetry in E; by apply snoc_ne_self in E).
          specialize (Hbelow ltac:(done)). rewrite below_nil in Hbelow. rewrite Hbelow by done.
          pose proof (wf_none_below g tmp Hwf Hgt) as Hb. rewrite below_nil in Hb. by rewrite Hb.
      - apply path_strip_None in Er. rewrite (lookup_insert_ne _ (c_dest c)) by (intros E; by rewrite <-E, under_refl in Er).
        destruct (under tmp q) eqn:Ut.
        + apply under_spec in Ut as [[|y r] ->]; [by rewrite app_nil_r|].
          pose proof (wf_none_below g tmp Hwf Hgt) as Hb. rewrite below_nil in Hb. by rewrite Hb.
        + rewrite lookup_insert_ne; [done|]. intros E. by rewrite E, under_refl in Ut. }
    rewrite Emv.
    destruct (Hlast (<[c_dest c := nf]> g) nf v) as [H1 H2].
    { by apply dirpath_insert. } { by rewrite lookup_insert. } { by rewrite Enf. } { by exists nf. }
    exists (v, [u]), (finish nf (details_of u n)). split; [exact H1|]. split; [done|]. split; [exact H2|].
    split; [apply finish_like; [by rewrite Enf|done]|]. split.
    + apply Hwf'; [by rewrite finish_kind, Enf|]. apply Hfp; by rewrite Enf.
    + rewrite finish_dev. assert (n_dev nf = parent_dev g (c_dest c)) as ->.
      { rewrite Enf. cbn. unfold parent_dev. by rewrite Ert, Erd. }
      destruct (g !! c_dest c) as [k|] eqn:Ek; [|done]. destruct (is_kdir (n_kind k)) eqn:Ekd; [|done].
      apply is_kdir_true in Ekd. exfalso. apply Hway. left. rewrite Ekn. done.
  - (* directory *)
    rewrite (bind_get_ok _ _ g (exists_ g (c_dest c) && is_dir g (c_dest c))) by done.
    destruct (g !! c_dest c) as [k|] eqn:Ek.
    + assert (n_kind k = KDir) as Hkd.
      { destruct (decide (n_kind k = KDir)) as [|Hnk]; [done|]. exfalso. apply Hway. right. rewrite Ekn. done. }
      assert (exists_ g (c_dest c) && is_dir g (c_dest c) = true) as ->.
      { unfold exists_, is_dir. rewrite (stat_dom g _ k); [|done|done|by rewrite Hkd]. cbn. by rewrite Hkd. }
      rewrite (bind_ok _ _ _ tt) by done. cbn [o_res o_fs ret_].
      destruct (Hlast g k v) as [H1 H2]; [done|done|congruence|exists k; symmetry; by apply insert_id|].
      exists (v, [u]), (finish k (details_of u n)). split; [exact H1|]. split; [done|]. split; [exact H2|].
      split; [apply finish_like; [congruence|done]|]. split.
      * apply Hwf'; [by rewrite finish_kind|]. apply Hfp; [done|]. by eapply wf_perm.
      * rewrite finish_dev, Hkd. done.
    + assert (exists_ g (c_dest c) && is_dir g (c_dest c) = false) as ->.
      { unfold exists_. rewrite stat_dirpath; [by rewrite Ek|done|intros k Hk; congruence]. }
      rewrite (bind_ok _ _ _ tt) by (by rewrite mkdir_ok). rewrite mkdir_ok by done. cbn [o_res o_fs emit].
      set (nd := new_dir (e_umask e) g (c_dest c)).
      destruct (Hlast (<[c_dest c := nd]> g) nd v) as [H1 H2].
      { by apply dirpath_insert. } { by rewrite lookup_insert. } { done. } { by exists nd. }
      exists (v, [u]), (finish nd (details_of u n)). split; [exact H1|]. split; [done|]. split; [exact H2|].
      split; [apply finish_like; [by rewrite Ekn|done]|]. split.
      * apply Hwf'; [by rewrite finish_kind|]. destruct (finish_like nd n u) as (_ & _ & _ & Hs); [by rewrite Ekn|done|].
        rewrite <-Hs; [done|by rewrite Ekn].
      * by rewrite finish_dev.
  - (* symlink *)
    rewrite (bind_get_ok _ _ g tg).
    2: { unfold read_link. rewrite (lstat_dom g _ n) by done. cbn. by rewrite Ekn. }
    set (t := match g !! c_dest c with Some _ => delete (c_dest c) g | None => g end).
    set (nl := new_link tg t (c_dest c)).
    assert (∀ h : M (nat * list path), let m := (old <-- get_ (λ f, from_path f (c_dest c)) ;;
                   (match old with Some _ => sys_unlink (c_dest c) | None => ret_ tt end ;;; h)) g in
        o_res m = o_res (h t) ∧ o_fs m = o_fs (h t)) as Ht3.
    { intros h. unfold t. destruct (g !! c_dest c) as [k|] eqn:Ek.
      - cbv zeta. rewrite (bind_get_ok _ _ g (Some (details_of (c_dest c) k))) by (by apply from_path_dom).
        assert (sys_unlink (c_dest c) g = emit (delete (c_dest c) g)) as Hun.
        { eapply unlink_ok; try done. intros Hkd. apply Hway. left. rewrite Ekn. done. }
        rewrite (bind_ok _ _ _ tt) by (by rewrite Hun). rewrite Hun. done.
      - cbv zeta. rewrite (bind_get_ok _ _ g None).
        + rewrite (bind_ok _ _ _ tt) by done. done.
        + unfold from_path. rewrite lstat_dirpath, Ek by done. done. }
    assert (dirpath t (c_dest c)) as Htd.
    { unfold t. destruct (g !! c_dest c); [|done]. intros q y r E. destruct (Hdp q y r E) as [(d & Hdq & Hdk) Hy]. split; [|done].
      exists d. split; [|done]. rewrite lookup_delete_ne; [done|]. rewrite E. by apply snoc_ne_self. }
    assert (t !! c_dest c = None) as Htn by (unfold t; destruct (g !! c_dest c) eqn:E; [apply lookup_delete|done]).
    assert (<[c_dest c := nl]> t = <[c_dest c := nl]> g) as Et.
    { unfold t. destruct (g !! c_dest c); [apply insert_delete_insert|done]. }
    destruct (Hlast (<[c_dest c := nl]> g) nl v) as [H1 H2].
    { by apply dirpath_insert. } { by rewrite lookup_insert. } { done. } { by exists nl. }
    match goal with |- context [o_res (bind_ (get_ (λ f, from_path f (c_dest c))) (λ old, bind_ _ (λ _, ?h)) g)] => destruct (Ht3 h) as [Hr Hf]; rewrite Hr, Hf end.
    rewrite (bind_ok _ _ _ tt) by (by rewrite symlink_ok). rewrite symlink_ok by done. cbn [o_res o_fs emit]. fold nl. rewrite Et.
    exists (v, [u]), (finish nl (details_of u n)). split; [exact H1|]. split; [done|]. split; [exact H2|].
    split; [apply finish_like; [by rewrite Ekn|done]|]. split.
    + apply Hwf'; [by rewrite finish_kind|]. apply Hfp; [done|done].
    + rewrite finish_dev. unfold nl, new_link. cbn [n_dev].
      assert (parent_dev t (c_dest c) = parent_dev g (c_dest c)) as ->.
      { unfold parent_dev, t. rewrite Ed, removelast_snoc. destruct (g !! (p ++ [x])); [|done].
        rewrite lookup_delete_ne; [done|]. intros E. by apply snoc_ne_self in E. }
      destruct (g !! c_dest c) as [k|] eqn:Ek; [|done]. destruct (is_kdir (n_kind k)) eqn:Ekd; [|done].
      apply is_kdir_true in Ekd. exfalso. apply Hway. left. rewrite Ekn. done.
Qed.

(** ** Loops, with the states passed through: each belongs to one step. *)
Lemma accum_states {A : Type} (P : list A → fs → Prop) (W : A → fs → fs → Prop) (g : A → M (nat * list path)) (l : list A) (s : fs) :
  (∀ pre x post t, l = pre ++ x :: post → P pre t →
     ∃ r, o_res (g x t) = Ok r ∧ P (pre ++ [x]) (o_fs (g x t)) ∧ ∀ st, st ∈ o_trace (g x t) → W x t st) →
  P [] s → ∃ r, o_res (accum l g s) = Ok r ∧ P l (o_fs (accum l g s)) ∧
    ∀ st, st ∈ o_trace (accum l g s) →
      ∃ pre x post t, l = pre ++ x :: post ∧ P pre t ∧ P (pre ++ [x]) (o_fs (g x t)) ∧ st ∈ o_trace (g x t) ∧ W x t st.
Proof.
  intros Hstep.
  enough (∀ post pre t, l = pre ++ post → P pre t →
            ∃ r, o_res (accum post g t) = Ok r ∧ P l (o_fs (accum post g t)) ∧
              ∀ st, st ∈ o_trace (accum post g t) →
                ∃ pre x post t, l = pre ++ x :: post ∧ P pre t ∧ P (pre ++ [x]) (o_fs (g x t)) ∧ st ∈ o_trace (g x t) ∧ W x t st) as H.
  { intros Hs. by apply (H l []). }
  induction post as [|x post IH]; intros pre t E Ht.
  - rewrite app_nil_r in E. subst pre. exists (0, []). split; [done|]. split; [done|]. intros st Hst. by apply elem_of_nil in Hst.
  - destruct (Hstep pre x post t E Ht) as (r & Hr & Ht' & Hw).
    destruct (IH (pre ++ [x]) _ ltac:(by rewrite <-app_assoc) Ht') as (r' & Hr' & Hl & Htr).
    cbn [accum]. rewrite (bind_ok _ _ _ r) by done. rewrite (bind_ok _ _ _ r') by done.
    cbn [o_res o_fs o_trace ret_]. eexists. split; [reflexivity|]. split; [done|]. rewrite app_nil_r.
    intros st Hst. apply elem_of_app in Hst as [Hst|Hst]; [|by apply Htr].
    exists pre, x, post, t. split; [done|]. split; [done|]. split; [done|]. split; [done|]. by apply Hw.
Qed.
Lemma for_states {A : Type} (P : list A → fs → Prop) (g : A → M unit) (l : list A) (s : fs) :
  (∀ pre x post t, l = pre ++ x :: post → P pre t →
     o_res (g x t) = Ok tt ∧ P (pre ++ [x]) (o_fs (g x t)) ∧ ∀ st, st ∈ o_trace (g x t) → st = o_fs (g x t)) →
  P [] s → o_res (for_ l g s) = Ok tt ∧ P l (o_fs (for_ l g s)) ∧
    ∀ st, st ∈ o_trace (for_ l g s) → ∃ pre post, l = pre ++ post ∧ P pre st.
Proof.
  intros Hstep.
  enough (∀ post pre t, l = pre ++ post → P pre t →
            o_res (for_ post g t) = Ok tt ∧ P l (o_fs (for_ post g t)) ∧
            ∀ st, st ∈ o_trace (for_ post g t) → ∃ pre post, l = pre ++ post ∧ P pre st) as H.
  { intros Hs. by apply (H l []). }
  induction post as [|x post IH]; intros pre t E Ht.
  - rewrite app_nil_r in E. subst pre. split; [done|]. split; [done|]. intros st Hst. by apply elem_of_nil in Hst.
  - destruct (Hstep pre x post t E Ht) as (Hr & Ht' & Hw).
    destruct (IH (pre ++ [x]) _ ltac:(by rewrite <-app_assoc) Ht') as (Hr' & Hl & Htr).
    cbn [for_]. rewrite (bind_ok _ _ _ tt) by done. cbn [o_res o_fs o_trace]. split; [done|]. split; [done|].
    intros st Hst. apply elem_of_app in Hst as [Hst|Hst]; [|by apply Htr].
    rewrite (Hw st Hst). exists (pre ++ [x]), post. split; [by rewrite <-app_assoc|done].
Qed.

(** ** The states passed through while one object is installed: nothing but the destination and the temporary
    file differs; a file or directory is at the destination as before or as it will be. *)
Definition installing (e : env) (ph i : nat) (c : change) (n : node) (g st : fs) : Prop :=
  (∀ q, q ≠ c_dest c → (q = with_extension (c_dest c) (e_uuid e (S ph) i) → is_kfile (n_kind n) = false) → st !! q = g !! q) ∧
  (st !! c_dest c = g !! c_dest c ∨ (∃ k, st !! c_dest c = Some k ∧ n_kind k = n_kind n) ∨
   is_klink (n_kind n) = true ∧ st !! c_dest c = None).

Lemma installing_at (e : env) (ph i : nat) (c : change) (n k : node) (g st : fs) :
  n_kind k = n_kind n → (∀ q, q ≠ c_dest c → st !! q = g !! q) → installing e ph i c n g (<[c_dest c := k]> st).
Proof.
  intros Hk H. split.
  - intros q Hq _. rewrite lookup_insert_ne by congruence. by apply H.
  - right. left. exists k. by rewrite lookup_insert.
Qed.
Lemma perms_trace (g : fs) (q u : path) (n k : node) : dirpath g q → g !! q = Some k →
  (is_klink (n_kind k) = true → is_klink (n_kind n) = true) →
  ∀ st, st ∈ o_trace (set_permissions q (details_of u n) g) → ∃ k', n_kind k' = n_kind k ∧ st = <[q := k']> g.
Proof.
  intros Hd Hk Hlk st. unfold set_permissions.
  rewrite (bind_ok _ _ _ tt) by (by rewrite (lchown_ok g _ k)). cbn [o_trace].
  rewrite (lchown_ok g _ k) by done. cbn [o_fs o_trace emit].
  intros Hst. apply elem_of_app in Hst as [Hst|Hst].
  { apply elem_of_list_singleton in Hst as ->. eexists. split; [|reflexivity]. done. }
  destruct (N.land (d_mode (details_of u n)) S_IFMT =? S_IFLNK)%N eqn:Elk; [by apply elem_of_nil in Hst|].
  erewrite lchmod_ok in Hst; [|by apply dirpath_insert|by rewrite lookup_insert|].
  - cbn [o_trace emit] in Hst. apply elem_of_list_singleton in Hst as ->. rewrite insert_insert. eexists. split; [|reflexivity]. done.
  - cbn. destruct (is_klink (n_kind k)) eqn:E; [|done]. exfalso. cbn in Elk. rewrite mode_type in Elk.
    specialize (Hlk eq_refl). by destruct (n_kind n).
Qed.

Lemma tmp_renamed (e : env) (ph i : nat) (c : change) (g : fs) (u p : path) (x : string) (n : node) (content : string) :
  wf_tree g → g !! u = Some n → n_kind n = KFile content → c_dest c = p ++ [x] → comp_ok x → is_dir_at g p →
  ¬ in_the_way n (g !! c_dest c) →
  let tmp := with_extension (c_dest c) (e_uuid e (S ph) i) in
  e_uuid e (S ph) i ≠ "" → contains "/" (e_uuid e (S ph) i) = false → g !! tmp = None → tmp ≠ c_dest c →
  let nf := copy_final (e_umask e) g n content tmp in
  dirpath g tmp ∧ nf = Node (KFile content) (n_perm n) 0 0 (parent_dev g tmp) ∅ ∧
  sys_rename tmp (c_dest c) (<[tmp := nf]> g) = emit (<[c_dest c := nf]> g).
Proof.
  intros Hwf Hu Ekn Ed Hx Hpar Hway tmp Hu1 Hu2 Hgt Hne nf.
  assert (dirpath g (c_dest c)) as Hdp by (rewrite Ed; by apply dirpath_snoc).
  assert (c_dest c ≠ []) as Hne0 by (rewrite Ed; by destruct p).
  assert (n_kind n ≠ KDir → below g (c_dest c) = []) as Hbelow.
  { intros Hnd. apply below_nil. intros r Hr. destruct (g !! (c_dest c ++ r)) as [k|] eqn:Ek; [|done]. exfalso.
    destruct (wf_prefix g _ _ _ Hwf Ek Hr) as (d & Hd & Hdk). apply Hway. rewrite Hd. left. done. }
  rewrite Ekn in Hbelow.
  assert (tmp = p ++ [file_stem x +:+ "." +:+ e_uuid e (S ph) i]) as Etmp by (unfold tmp; by rewrite Ed, with_extension_snoc).
  assert (dirpath g tmp) as Hdt.
  { rewrite Etmp. apply dirpath_snoc; [done|done|]. by apply tmp_comp_ok. }
  assert (nf = Node (KFile content) (n_perm n) 0 0 (parent_dev g tmp) ∅) as Enf.
  { unfold nf, copy_final, copy_base. by rewrite Hgt. }
  assert (under tmp (c_dest c) = false ∧ under (c_dest c) tmp = false) as [U1 U2].
  { rewrite Ed, Etmp in *. split; apply siblings; congruence. }
  assert (∀ q y r, tmp = q ++ y :: r → q ≠ tmp) as Hpt.
  { intros q y r E E'. rewrite E' in E. symmetry in E. by apply snoc_ne_self in E. }
  assert (∀ q, removelast q = p → parent_dev (<[tmp := nf]> g) q = parent_dev g q) as Hpd.
  { intros q Hq. unfold parent_dev. rewrite Hq. rewrite lookup_insert_ne; [done|]. rewrite Etmp. intros E. by apply snoc_ne_self in E. }
  assert (removelast tmp = p) as Ert by (rewrite Etmp; by rewrite removelast_snoc).
  assert (removelast (c_dest c) = p) as Erd by (rewrite Ed; by rewrite removelast_snoc).
  assert (dirpath (<[tmp := nf]> g) (c_dest c)) as Hdp1.
  { intros q y r E. destruct (Hdp q y r E) as [(d & Hdq & Hdk) Hy]. split; [|done].
    exists d. split; [|done]. rewrite lookup_insert_ne; [done|]. intros E'. rewrite <-E' in E.
    rewrite E, under_app in U1. done. }
  assert (sys_rename tmp (c_dest c) (<[tmp := nf]> g) = emit (moved (<[tmp := nf]> g) tmp (c_dest c))) as Hren.
  { apply (rename_ok _ _ _ nf); try done.
    - by apply dirpath_insert.
    - by rewrite lookup_insert.
    - rewrite !Hpd by done. unfold parent_dev. by rewrite Ert, Erd.
    - rewrite Hpd by done. by rewrite Enf.
    - rewrite lookup_insert_ne by done. destruct (g !! c_dest c) as [k|] eqn:Ek; [|done].
      rewrite Enf. cbn. split; [done|]. destruct (is_kdir (n_kind k)) eqn:Ekd; [|done]. exfalso.
      apply is_kdir_true in Ekd. apply Hway. left. rewrite Ekn. done. }
  assert (moved (<[tmp := nf]> g) tmp (c_dest c) = <[c_dest c := nf]> g) as Emv.
  { apply map_eq. intros q. rewrite lookup_moved by done. destruct (path_strip (c_dest c) q) as [r|] eqn:Er.
    - apply path_strip_spec in Er as ->. destruct r as [|y r].
      + rewrite !app_nil_r, !lookup_insert. done.
      + rewrite lookup_insert_ne by (intros E; symmetry in E; by apply snoc_ne_self in E).
        rewrite lookup_insert_ne by (intros E; symmetry in E; by apply snoc_ne_self in E).
        specialize (Hbelow ltac:(done)). rewrite below_nil in Hbelow. rewrite Hbelow by done.
        pose proof (wf_none_below g tmp Hwf Hgt) as Hb. rewrite below_nil in Hb. by rewrite Hb.
    - apply path_strip_None in Er. rewrite (lookup_insert_ne _ (c_dest c)) by (intros E; by rewrite <-E, under_refl in Er).
      destruct (under tmp q) eqn:Ut.
      + apply under_spec in Ut as [[|y r] ->]; [by rewrite app_nil_r|].
        pose proof (wf_none_below g tmp Hwf Hgt) as Hb. rewrite below_nil in Hb. by rewrite Hb.
      + rewrite lookup_insert_ne; [done|]. intros E. by rewrite E, under_refl in Ut. }
  split; [done|]. split; [done|]. by rewrite Hren, Emv.
Qed.

Lemma set_trace (e : env) (ph i : nat) (c : change) (g : fs) (ty : set_type) (u p : path) (x : string) (n : node) :
  wf_tree g → c_op c = OSet ty → c_staged c = Some (details_of u n) → g !! u = Some n → supported n = true →
  c_dest c = p ++ [x] → comp_ok x → is_dir_at g p → ¬ in_the_way n (g !! c_dest c) →
  (is_kfile (n_kind n) = true → e_uuid e (S ph) i ≠ "" ∧ contains "/" (e_uuid e (S ph) i) = false ∧
     g !! with_extension (c_dest c) (e_uuid e (S ph) i) = None ∧ with_extension (c_dest c) (e_uuid e (S ph) i) ≠ c_dest c) →
  ∀ st, st ∈ o_trace (accept_set e ph false (i, c) g) → installing e ph i c n g st.
Proof.
  intros Hwf Eop Est Hu Hsup Ed Hx Hpar Hway Htmp.
  assert (dirpath g (c_dest c)) as Hdp by (rewrite Ed; by apply dirpath_snoc).
  (* the last step *)
  assert (∀ t k (v : nat), dirpath t (c_dest c) → t !! c_dest c = Some k → n_kind k = n_kind n →
     (∀ q, q ≠ c_dest c → t !! q = g !! q) →
     ∀ st, st ∈ o_trace ((set_permissions (c_dest c) (details_of u n) ;;; ret_ (v, [u])) t) → installing e ph i c n g st) as Hlast.
  { intros t k v Hd Hk Hkk Ht st Hst. destruct (perms_ok t (c_dest c) u n k Hd Hk) as [H1 H2]; [by rewrite Hkk|].
    rewrite (bind_ok _ _ _ tt) in Hst by done. cbn [o_trace ret_] in Hst. rewrite app_nil_r in Hst.
    destruct (perms_trace t (c_dest c) u n k Hd Hk ltac:(by rewrite Hkk) st Hst) as (k' & Hk' & ->).
    apply installing_at; [congruence|done]. }
  unfold accept_set. rewrite Eop, Est, d_is_file_of, d_is_symlink_of, d_is_dir_of. cbn [d_path details_of].
  set (v := if is_actually_modified c then 1 else 0).
  destruct (n_kind n) as [content| |tg| | | |] eqn:Ekn; cbn [is_kfile is_kdir is_klink]; try by (unfold supported in Hsup; rewrite Ekn in Hsup).
  - (* regular file *)
    destruct (Htmp eq_refl) as (Hu1 & Hu2 & Hgt & Hne). set (tmp := with_extension (c_dest c) (e_uuid e (S ph) i)) in *.
    assert (tmp = p ++ [file_stem x +:+ "." +:+ e_uuid e (S ph) i]) as Etmp by (unfold tmp; by rewrite Ed, with_extension_snoc).
    assert (dirpath g tmp) as Hdt.
    { rewrite Etmp. apply dirpath_snoc; [done|done|]. by apply tmp_comp_ok. }
    assert (stat g u = Ok n) as Hstat by (apply stat_dom; [done|done|by rewrite Ekn]).
    pose proof (copy_ok (e_umask e) g u tmp n content Hdt Hgt Hstat Ekn) as Hcopy.
    destruct (tmp_renamed e ph i c g u p x n content Hwf Hu Ekn Ed Hx Hpar Hway Hu1 Hu2 Hgt Hne) as (_ & Enf & Hren).
    fold tmp in Enf, Hren. set (nf := copy_final (e_umask e) g n content tmp) in *.
    rewrite (bind_ok _ _ _ tt) by (by rewrite Hcopy). rewrite Hcopy. cbn [o_res o_fs o_trace].
    rewrite (bind_ok _ _ _ tt) by (by rewrite Hren). rewrite Hren. cbn [o_res o_fs o_trace emit].
    assert (∀ k, installing e ph i c n g (<[tmp := k]> g)) as Hcop.
    { intros k. split; [|left; by rewrite lookup_insert_ne].
      intros q Hq Ht. rewrite lookup_insert_ne; [done|]. intros <-. rewrite Ekn in Ht. specialize (Ht eq_refl). done. }
    intros st Hst. apply elem_of_app in Hst as [Hst|Hst].
    + unfold copy_states in Hst. apply elem_of_cons in Hst as [-> |Hst]; [apply Hcop|].
      apply elem_of_cons in Hst as [-> |Hst]; [apply Hcop|]. apply elem_of_list_fmap in Hst as (y & -> & _). apply Hcop.
    + apply elem_of_cons in Hst as [-> |Hst].
      * apply installing_at; [by rewrite Enf|done].
      * apply (Hlast (<[c_dest c := nf]> g) nf v); [by apply dirpath_insert|by rewrite lookup_insert|by rewrite Enf| |done].
        intros q Hq. by rewrite lookup_insert_ne by congruence.
  - (* directory *)
    rewrite (bind_get_ok _ _ g (exists_ g (c_dest c) && is_dir g (c_dest c))) by done.
    destruct (g !! c_dest c) as [k|] eqn:Ek.
    + assert (n_kind k = KDir) as Hkd.
      { destruct (decide (n_kind k = KDir)) as [|Hnk]; [done|]. exfalso. apply Hway. right. rewrite Ekn. done. }
      assert (exists_ g (c_dest c) && is_dir g (c_dest c) = true) as ->.
      { unfold exists_, is_dir. rewrite (stat_dom g _ k); [|done|done|by rewrite Hkd]. cbn. by rewrite Hkd. }
      rewrite (bind_ok _ _ _ tt) by done. cbn [o_trace o_fs ret_ app].
      apply (Hlast g k v); [done|done|congruence|done].
    + assert (exists_ g (c_dest c) && is_dir g (c_dest c) = false) as ->.
      { unfold exists_. rewrite stat_dirpath; [by rewrite Ek|done|intros k Hk; congruence]. }
      rewrite (bind_ok _ _ _ tt) by (by rewrite mkdir_ok). rewrite mkdir_ok by done. cbn [o_trace o_fs emit].
      set (nd := new_dir (e_umask e) g (c_dest c)).
      intros st Hst. apply elem_of_app in Hst as [Hst|Hst].
      * apply elem_of_list_singleton in Hst as ->. apply installing_at; [by rewrite Ekn|done].
      * apply (Hlast (<[c_dest c := nd]> g) nd v); [by apply dirpath_insert|by rewrite lookup_insert|done| |done].
        intros q Hq. by rewrite lookup_insert_ne by congruence.
  - (* symlink *)
    rewrite (bind_get_ok _ _ g tg).
    2: { unfold read_link. rewrite (lstat_dom g _ n) by done. cbn. by rewrite Ekn. }
    assert (∀ t, t !! c_dest c = None → dirpath t (c_dest c) → (∀ q, q ≠ c_dest c → t !! q = g !! q) →
      ∀ st, st ∈ o_trace ((sys_symlink tg (c_dest c) ;;; set_permissions (c_dest c) (details_of u n) ;;; ret_ (v, [u])) t) → installing e ph i c n g st) as Hrest.
    { intros t Htn Htd Hq st Hst. rewrite (bind_ok _ _ _ tt) in Hst by (by rewrite symlink_ok). rewrite symlink_ok in Hst by done.
      cbn [o_trace o_fs emit] in Hst. apply elem_of_app in Hst as [Hst|Hst].
      - apply elem_of_list_singleton in Hst as ->. apply installing_at; [by rewrite Ekn|done].
      - revert Hst. apply (Hlast _ (new_link tg t (c_dest c)) v); [by apply dirpath_insert|by rewrite lookup_insert|done|].
        intros q Hq'. rewrite lookup_insert_ne by congruence. by apply Hq. }
    destruct (g !! c_dest c) as [k|] eqn:Ek.
    + rewrite (bind_get_ok _ _ g (Some (details_of (c_dest c) k))) by (by apply from_path_dom).
      assert (sys_unlink (c_dest c) g = emit (delete (c_dest c) g)) as Hun.
      { eapply unlink_ok; try done. intros Hkd. apply Hway. left. rewrite Ekn. done. }
      rewrite (bind_ok _ _ _ tt) by (by rewrite Hun). rewrite Hun. cbn [o_trace o_fs emit].
      intros st Hst. apply elem_of_app in Hst as [Hst|Hst].
      * apply elem_of_list_singleton in Hst as ->. split; [|right; right; rewrite Ekn; by rewrite lookup_delete].
        intros q Hq _. by rewrite lookup_delete_ne by congruence.
      * revert Hst. apply Hrest; [apply lookup_delete| |intros q Hq; by rewrite lookup_delete_ne by congruence].
        intros q y r E. destruct (Hdp q y r E) as [(d & Hdq & Hdk) Hy]. split; [|done].
        exists d. split; [|done]. rewrite lookup_delete_ne; [done|]. rewrite E. by apply snoc_ne_self.
    + rewrite (bind_get_ok _ _ g None).
      * rewrite (bind_ok _ _ _ tt) by done. cbn [o_trace o_fs ret_ app]. apply Hrest; [done|done|done].
      * unfold from_path. rewrite lstat_dirpath, Ek by done. done.
Qed.

(** ** Steps of one system call pass through their final state only. *)
Definition shot {A : Type} (m : M A) : Prop := ∀ f st, st ∈ o_trace (m f) → st = o_fs (m f).
Lemma shot_pure {A : Type} (m : M A) : pure m → shot m.
Proof. intros H f st Hst. destruct (H f) as [E _]. rewrite E in Hst. by apply elem_of_nil in Hst. Qed.
Lemma shot_bind {A B : Type} (m : M A) (k : A → M B) : shot m → (∀ a, pure (k a)) → shot (bind_ m k).
Proof.
  intros Hm Hk f st. unfold bind_. specialize (Hm f). destruct (m f) as [tr f1 [a|er]]; cbn [o_res o_fs o_trace] in *; [|by apply Hm].
  destruct (Hk a f1) as [-> ->]. rewrite app_nil_r. by apply Hm.
Qed.
Ltac shot_call := intros f st; cbv zeta;
  repeat (match goal with |- context [match ?x with _ => _ end] => destruct x end); cbn [o_trace o_fs fail_ emit];
  intros Hst; first [by apply elem_of_nil in Hst|by apply elem_of_list_singleton in Hst].
Lemma shot_unlink (p : path) : shot (sys_unlink p).
Proof. unfold sys_unlink. shot_call. Qed.
Lemma shot_rmdir (p : path) : shot (sys_rmdir p).
Proof. unfold sys_rmdir. shot_call. Qed.
Lemma shot_rename (p q : path) : shot (sys_rename p q).
Proof. unfold sys_rename. shot_call. Qed.
Lemma shot_remove (c : change) : shot (accept_remove false c).
Proof.
  unfold accept_remove. destruct (c_op c); try (apply shot_pure, pure_ret). destruct (c_source c) as [s|]; [|apply shot_pure, pure_throw].
  apply shot_bind; [|intros []; apply pure_ret]. destruct (d_is_file s || d_is_symlink s); [apply shot_unlink|].
  destruct (d_is_dir s); [apply shot_rmdir|apply shot_pure, pure_throw].
Qed.
Lemma shot_premove (c : change) : shot (accept_premove false c).
Proof.
  unfold accept_premove. destruct (c_op c); try (apply shot_pure, pure_ret). destruct (c_source c) as [s|]; [|apply shot_pure, pure_ret].
  destruct (c_tmp c); [apply shot_rename|apply shot_pure, pure_ret].
Qed.
Lemma shot_place (e : env) (ph : nat) (i : nat) (c : change) : ¬ is_set c → shot (accept_set e ph false (i, c)).
Proof.
  intros Hn. unfold accept_set. destruct (c_op c) as [t| | |er] eqn:E.
  - destruct Hn. by exists t.
  - apply shot_pure, pure_ret.
  - destruct (c_tmp c); [|apply shot_pure, pure_throw]. apply shot_bind; [apply shot_rename|]. intros []. apply pure_ret.
  - apply shot_pure, pure_throw.
Qed.
Lemma accum_shots {A : Type} (P : list A → fs → Prop) (g : A → M (nat * list path)) (l : list A) (s : fs) : (∀ x, shot (g x)) →
  (∀ pre x post t, l = pre ++ x :: post → P pre t → ∃ r, o_res (g x t) = Ok r ∧ P (pre ++ [x]) (o_fs (g x t))) →
  P [] s → ∃ r, o_res (accum l g s) = Ok r ∧ P l (o_fs (accum l g s)) ∧
    ∀ st, st ∈ o_trace (accum l g s) → ∃ pre post, l = pre ++ post ∧ P pre st.
Proof.
  intros Hs Hstep Hi. destruct (accum_states P (λ _ _ _, True) g l s) as (r & H1 & H2 & H3); [|done|].
  - intros pre x post t El Ht. destruct (Hstep pre x post t El Ht) as (r & Hr & Hp). by exists r.
  - exists r. split; [done|]. split; [done|]. intros st Hst. destruct (H3 st Hst) as (pre & x & post & t & El & _ & Hp & Hst' & _).
    exists (pre ++ [x]), post. split; [by rewrite <-app_assoc|]. by rewrite (Hs x t st Hst').
Qed.
Lemma for_shots {A : Type} (P : list A → fs → Prop) (g : A → M unit) (l : list A) (s : fs) : (∀ x, shot (g x)) →
  (∀ pre x post t, l = pre ++ x :: post → P pre t → o_res (g x t) = Ok tt ∧ P (pre ++ [x]) (o_fs (g x t))) →
  P [] s → o_res (for_ l g s) = Ok tt ∧ P l (o_fs (for_ l g s)) ∧
    ∀ st, st ∈ o_trace (for_ l g s) → ∃ pre post, l = pre ++ post ∧ P pre st.
Proof.
  intros Hs Hstep Hi. apply for_states; [|done]. intros pre x post t El Ht. destruct (Hstep pre x post t El Ht) as (Hr & Hp).
  split; [done|]. split; [done|]. apply Hs.
Qed.
