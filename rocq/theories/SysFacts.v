(** * What each system call does, by cases: it fails and changes nothing, or it has its effect.
    Used both for success and for frame arguments. *)
From Verif Require Export FSFacts.

(** ** Triples: starting in [P], every state passed through satisfies [I]; on success the final
    state and result satisfy [Q]. *)
Definition triple {A : Type} (I P : fs → Prop) (m : M A) (Q : A → fs → Prop) : Prop :=
  ∀ f, P f → Forall I (o_trace (m f)) ∧ I (o_fs (m f)) ∧
              ∀ a, o_res (m f) = Ok a → Q a (o_fs (m f)).

Lemma triple_ret {A : Type} (I P : fs → Prop) (a : A) (Q : A → fs → Prop) :
  (∀ f, P f → I f) → (∀ f, P f → Q a f) → triple I P (ret_ a) Q.
Proof.
  intros HI HQ f Hf. split; [constructor|]. split; [by apply HI|].
  intros a' E. injection E as <-. by apply HQ.
Qed.
Lemma triple_throw {A : Type} (I P : fs → Prop) (e : err) (Q : A → fs → Prop) :
  (∀ f, P f → I f) → triple I P (throw e) Q.
Proof. intros HI f Hf. split; [constructor|]. split; [by apply HI|]. done. Qed.
Lemma triple_get {A : Type} (I P : fs → Prop) (r : fs → res A) (Q : A → fs → Prop) :
  (∀ f, P f → I f) → (∀ f a, P f → r f = Ok a → Q a f) → triple I P (get_ r) Q.
Proof.
  intros HI HQ f Hf. split; [constructor|]. split; [by apply HI|].
  intros a E. by apply HQ.
Qed.
Lemma triple_bind {A B : Type} (I P : fs → Prop) (m : M A) (k : A → M B)
    (Q : A → fs → Prop) (R : B → fs → Prop) :
  triple I P m Q → (∀ a, triple I (Q a) (k a) R) → triple I P (bind_ m k) R.
Proof.
  intros Hm Hk f Hf. destruct (Hm f Hf) as (H1 & H2 & H3). unfold bind_.
  destruct (o_res (m f)) as [a|e] eqn:E; simpl; [|done].
  destruct (Hk a _ (H3 a eq_refl)) as (H4 & H5 & H6).
  split; [by apply Forall_app|]. done.
Qed.
Lemma triple_weaken {A : Type} (I P P' : fs → Prop) (m : M A) (Q Q' : A → fs → Prop) :
  triple I P' m Q' → (∀ f, P f → P' f) → (∀ a f, Q' a f → Q a f) → triple I P m Q.
Proof.
  intros H HP HQ f Hf. destruct (H f (HP f Hf)) as (H1 & H2 & H3).
  split; [done|]. split; [done|]. intros a E. by apply HQ, H3.
Qed.
Lemma triple_for {A : Type} (I : fs → Prop) (l : list A) (g : A → M unit) :
  (∀ x, x ∈ l → triple I I (g x) (λ _, I)) → triple I I (for_ l g) (λ _, I).
Proof.
  induction l as [|x l IH]; intros H; simpl; [by apply triple_ret|].
  eapply triple_bind; [apply H; left|]. intros []. apply IH. intros y Hy. apply H. by right.
Qed.

(** ** Lookups *)
Lemma walk_ok_parent n f follow cur todo q :
  wf_tree f → is_Some (f !! cur) → walk n f follow cur todo = Ok q →
  is_Some (f !! q) ∨ ∃ q' c, q = q' ++ [c] ∧ is_dir_at f q'.
Proof.
  intros Hwf. revert cur todo.
  induction n as [n IHn] using lt_wf_ind. intros cur todo. revert cur.
  induction todo as [|c rest IH]; intros cur Hcur.
  - rewrite walk_nil. injection 1 as <-. by left.
  - rewrite walk_cons. destruct (String.eqb c "" || String.eqb c "."); [by apply IH|].
    destruct (String.eqb c "..").
    { apply IH. destruct (path_snoc_case cur) as [->|(q' & x & ->)]; [done|].
      rewrite removelast_snoc. destruct Hcur as [m Hm]. by eapply wf_is_Some_prefix. }
    destruct (f !! cur) as [d|] eqn:Ed; [|done].
    destruct (is_kdir (n_kind d)) eqn:Ek; [|done].
    destruct (f !! (cur ++ [c])) as [nd|] eqn:En.
    + assert (walk n f follow (cur ++ [c]) rest = Ok q →
              is_Some (f !! q) ∨ ∃ q' c, q = q' ++ [c] ∧ is_dir_at f q') as Hgo
        by (apply IH; by eexists).
      destruct (n_kind nd) eqn:Ekn; try exact Hgo.
      assert (match n with
              | 0 => Err ELOOP
              | S n' => walk n' f follow (if is_abs target then [] else cur)
                          (split_on "/" target ++ rest)
              end = Ok q → is_Some (f !! q) ∨ ∃ q' c, q = q' ++ [c] ∧ is_dir_at f q') as Hl.
      { destruct n as [|n']; [done|]. apply IHn; [lia|].
        destruct (is_abs target); [|by eexists].
        destruct (wf_root f Hwf) as (r & Hr & _). by eexists. }
      destruct rest; [|done]. destruct follow; [done|].
      injection 1 as <-. left. by eexists.
    + destruct rest; [|done]. injection 1 as <-. right. exists cur, c. split; [done|].
      exists d. split; [done|]. by apply is_kdir_true.
Qed.

Lemma nolink_comps f p : nolink f p → ∀ q c r, p = q ++ c :: r → comp_ok c.
Proof. intros H q c r E. by apply (H q c r). Qed.

Lemma nolink_found f p q follow n :
  wf_tree f → nolink f p → walk n f follow [] p = Ok q → q = p → dirpath f p.
Proof.
  intros Hwf Hnl Hw ->.
  destruct (walk_ok_parent _ _ _ _ _ _ Hwf ltac:(destruct (wf_root f Hwf) as (r & Hr & _); by eexists)
              Hw) as [[m Hm]|(q' & c & -> & Hd)].
  - by eapply wf_dirpath.
  - apply dirpath_snoc; [done|done|]. by apply (Hnl q' c []).
Qed.

Lemma lookup_l_cases f p : wf_tree f → nolink f p →
  (∃ e, lookup_l f p = Err e) ∨ (lookup_l f p = Ok p ∧ dirpath f p).
Proof.
  intros Hwf Hnl. destruct (lookup_l_nolink f p Hnl) as [H|H]; [|by left].
  right. split; [exact H|]. unfold lookup_l in H.
  exact (nolink_found f p p false max_links Hwf Hnl H eq_refl).
Qed.

Lemma lookup_f_cases f p : wf_tree f → nolink f p →
  (∀ n, f !! p = Some n → is_klink (n_kind n) = false) →
  (∃ e, lookup_f f p = Err e) ∨ (lookup_f f p = Ok p ∧ dirpath f p).
Proof.
  intros Hwf Hnl Hl. destruct (lookup_f_nolink f p Hnl Hl) as [H|H]; [|by left].
  right. split; [exact H|]. unfold lookup_f in H.
  exact (nolink_found f p p true max_links Hwf Hnl H eq_refl).
Qed.

(** ** System calls *)
Lemma unlink_ok f p n : dirpath f p → f !! p = Some n → n_kind n ≠ KDir →
  sys_unlink p f = emit (delete p f).
Proof.
  intros Hd Hn Hk. unfold sys_unlink. rewrite lookup_l_dirpath, Hn by done.
  destruct (is_kdir (n_kind n)) eqn:E; [|done]. by apply is_kdir_true in E.
Qed.

Lemma unlink_cases f p : wf_tree f → nolink f p →
  (∃ e, sys_unlink p f = fail_ f e) ∨
  (∃ n, dirpath f p ∧ f !! p = Some n ∧ n_kind n ≠ KDir ∧ p ≠ [] ∧
        sys_unlink p f = emit (delete p f) ∧ wf_tree (delete p f)).
Proof.
  intros Hwf Hnl. unfold sys_unlink.
  destruct (lookup_l_cases f p Hwf Hnl) as [[e ->]|[-> Hd]]; [by left; eexists|].
  destruct (f !! p) as [n|] eqn:En; [|by left; eexists].
  destruct (is_kdir (n_kind n)) eqn:E; [by left; eexists|].
  assert (n_kind n ≠ KDir) as Hk by (intros Hk; rewrite Hk in E; done).
  assert (p ≠ []) as Hp.
  { intros ->. destruct (wf_root f Hwf) as (r & Hr & Hkr). congruence. }
  right. exists n. repeat (split; [done|]).
  apply wf_delete; [done|done|]. by eapply wf_nondir_below.
Qed.

Lemma rmdir_ok f p n : dirpath f p → p ≠ [] → f !! p = Some n → n_kind n = KDir →
  dev_of f (removelast p) = Some (n_dev n) → below f p = [] →
  sys_rmdir p f = emit (delete p f).
Proof.
  intros Hd Hp Hn Hk Hdev Hb. unfold sys_rmdir. rewrite lookup_l_dirpath, Hn, Hk by done. simpl.
  destruct p as [|c p]; [done|]. rewrite decide_True by done. by rewrite Hb.
Qed.

Lemma rmdir_cases f p : wf_tree f → nolink f p →
  (∃ e, sys_rmdir p f = fail_ f e) ∨
  (∃ n, dirpath f p ∧ f !! p = Some n ∧ n_kind n = KDir ∧ p ≠ [] ∧ below f p = [] ∧
        sys_rmdir p f = emit (delete p f) ∧ wf_tree (delete p f)).
Proof.
  intros Hwf Hnl. unfold sys_rmdir.
  destruct (lookup_l_cases f p Hwf Hnl) as [[e ->]|[-> Hd]]; [by left; eexists|].
  destruct (f !! p) as [n|] eqn:En; [|by left; eexists].
  destruct (is_kdir (n_kind n)) eqn:E; [|by left; eexists].
  destruct p as [|c p]; [by left; eexists|].
  case_decide; [|by left; eexists].
  destruct (below f (c :: p)) eqn:Eb; [|by left; eexists].
  right. exists n. split; [done|]. split; [done|]. split; [by apply is_kdir_true|].
  repeat (split; [done|]). by apply wf_delete.
Qed.

Lemma and_not_lt a b : (a < 4096)%N → (and_not a b < 4096)%N.
Proof.
  intros H. unfold and_not.
  assert (N.ldiff a b = N.ldiff a b mod 2 ^ 12)%N as ->.
  { rewrite <-N.land_ones. apply N.bits_inj_iff. intros i.
    rewrite N.land_spec, N.ldiff_spec.
    destruct (N.ltb_spec i 12).
    - rewrite N.ones_spec_low by done. by rewrite andb_true_r.
    - rewrite N.ones_spec_high by done. rewrite andb_false_r.
      destruct (decide (a = 0%N)) as [->|Hne]; [by rewrite N.bits_0|].
      rewrite (N.bits_above_log2 a i); [done|].
      eapply N.lt_le_trans; [|exact H0]. apply N.log2_lt_pow2; [lia|]. exact H. }
  apply N.mod_lt. done.
Qed.

Lemma land_7777_lt m : (N.land m o7777 < 4096)%N.
Proof.
  change o7777 with (N.ones 12). rewrite N.land_ones. apply N.mod_lt. done.
Qed.

Lemma land_7777_id m : (m < 4096)%N → N.land m o7777 = m.
Proof. intros H. change o7777 with (N.ones 12). rewrite N.land_ones. by apply N.mod_small. Qed.

Definition new_dir (umask : N) (f : fs) (p : path) : node :=
  Node KDir (and_not o777 umask) 0 0 (parent_dev f p) ∅.

Lemma mkdir_ok umask f p : dirpath f p → f !! p = None →
  sys_mkdir umask p f = emit (<[p := new_dir umask f p]> f).
Proof. intros Hd Hn. unfold sys_mkdir. by rewrite lookup_l_dirpath, Hn. Qed.

Lemma mkdir_cases umask f p : wf_tree f → nolink f p →
  (∃ e, sys_mkdir umask p f = fail_ f e) ∨
  (dirpath f p ∧ f !! p = None ∧ sys_mkdir umask p f = emit (<[p := new_dir umask f p]> f)
   ∧ wf_tree (<[p := new_dir umask f p]> f)).
Proof.
  intros Hwf Hnl. unfold sys_mkdir.
  destruct (lookup_l_cases f p Hwf Hnl) as [[e ->]|[-> Hd]]; [by left; eexists|].
  destruct (f !! p) as [n|] eqn:En; [by left; eexists|].
  right. repeat (split; [done|]). apply wf_insert; [done|done| |by left].
  apply and_not_lt. done.
Qed.

Definition new_link (target : string) (f : fs) (p : path) : node :=
  Node (KLink target) o777 0 0 (parent_dev f p) ∅.

Lemma symlink_ok target f p : dirpath f p → f !! p = None →
  sys_symlink target p f = emit (<[p := new_link target f p]> f).
Proof. intros Hd Hn. unfold sys_symlink. by rewrite lookup_l_dirpath, Hn. Qed.

Lemma symlink_cases target f p : wf_tree f → nolink f p →
  (∃ e, sys_symlink target p f = fail_ f e) ∨
  (dirpath f p ∧ f !! p = None ∧ sys_symlink target p f = emit (<[p := new_link target f p]> f)
   ∧ wf_tree (<[p := new_link target f p]> f)).
Proof.
  intros Hwf Hnl. unfold sys_symlink.
  destruct (lookup_l_cases f p Hwf Hnl) as [[e ->]|[-> Hd]]; [by left; eexists|].
  destruct (f !! p) as [n|] eqn:En; [by left; eexists|].
  right. repeat (split; [done|]). apply wf_insert; [done|done|done|].
  right. split.
  - intros ->. destruct (wf_root f Hwf) as (r & Hr & Hkr). congruence.
  - by apply wf_none_below.
Qed.

Definition chowned (n : node) (u g : N) : node := set_owner (set_perm n (chown_perm n)) u g.

Lemma chown_perm_lt n : (n_perm n < 4096)%N → (chown_perm n < 4096)%N.
Proof.
  intros H. unfold chown_perm. destruct (is_kdir (n_kind n)); [done|].
  destruct (N.testbit (n_perm n) 3); repeat apply and_not_lt; done.
Qed.

Lemma lchown_ok f p n u g : dirpath f p → f !! p = Some n →
  sys_lchown p u g f = emit (<[p := chowned n u g]> f).
Proof. intros Hd Hn. unfold sys_lchown. by rewrite lookup_l_dirpath, Hn. Qed.

Lemma wf_update f p n n' : wf_tree f → f !! p = Some n → n_kind n' = n_kind n →
  (n_perm n' < 4096)%N → wf_tree (<[p := n']> f).
Proof.
  intros Hwf Hn Hk Hp. apply wf_insert; [done|by eapply wf_dirpath|done|].
  destruct (is_kdir (n_kind n)) eqn:E.
  - left. rewrite Hk. by apply is_kdir_true.
  - right. split.
    + intros ->. destruct (wf_root f Hwf) as (r & Hr & Hkr).
      rewrite Hn in Hr. injection Hr as <-. by rewrite Hkr in E.
    + eapply wf_nondir_below; [done|done|]. intros Hd. by rewrite Hd in E.
Qed.

Lemma lchown_cases f p u g : wf_tree f → nolink f p →
  (∃ e, sys_lchown p u g f = fail_ f e) ∨
  (∃ n, dirpath f p ∧ f !! p = Some n ∧ sys_lchown p u g f = emit (<[p := chowned n u g]> f)
        ∧ wf_tree (<[p := chowned n u g]> f)).
Proof.
  intros Hwf Hnl. unfold sys_lchown.
  destruct (lookup_l_cases f p Hwf Hnl) as [[e ->]|[-> Hd]]; [by left; eexists|].
  destruct (f !! p) as [n|] eqn:En; [|by left; eexists].
  right. exists n. repeat (split; [done|]). eapply wf_update; [done|done|done|].
  simpl. apply chown_perm_lt. by eapply wf_perm.
Qed.

Lemma lchmod_ok f p n m : dirpath f p → f !! p = Some n → is_klink (n_kind n) = false →
  sys_lchmod p m f = emit (<[p := set_perm n (N.land m o7777)]> f).
Proof. intros Hd Hn Hl. unfold sys_lchmod. by rewrite lookup_l_dirpath, Hn, Hl. Qed.

Lemma lchmod_cases f p m : wf_tree f → nolink f p →
  (∃ e, sys_lchmod p m f = fail_ f e) ∨
  (∃ n, dirpath f p ∧ f !! p = Some n ∧ is_klink (n_kind n) = false ∧
        sys_lchmod p m f = emit (<[p := set_perm n (N.land m o7777)]> f)
        ∧ wf_tree (<[p := set_perm n (N.land m o7777)]> f)).
Proof.
  intros Hwf Hnl. unfold sys_lchmod.
  destruct (lookup_l_cases f p Hwf Hnl) as [[e ->]|[-> Hd]]; [by left; eexists|].
  destruct (f !! p) as [n|] eqn:En; [|by left; eexists].
  destruct (is_klink (n_kind n)) eqn:El; [by left; eexists|].
  right. exists n. repeat (split; [done|]). eapply wf_update; [done|done|done|].
  simpl. apply land_7777_lt.
Qed.

(** ** Copy *)
Definition copy_base (umask : N) (f : fs) (sn : node) (dst : path) : node :=
  match f !! dst with
  | None => Node (KFile "") (and_not (n_perm sn) umask) 0 0 (parent_dev f dst) ∅
  | Some dn => set_content dn ""
  end.

Definition copy_states (umask : N) (f : fs) (sn : node) (content : string) (dst : path) : list fs :=
  let n0 := copy_base umask f sn dst in
  <[dst := n0]> f :: <[dst := set_perm n0 (n_perm sn)]> f ::
    ((λ c, <[dst := set_content (set_perm n0 (n_perm sn)) c]> f) <$> prefixes content).

Definition copy_final (umask : N) (f : fs) (sn : node) (content : string) (dst : path) : node :=
  set_content (set_perm (copy_base umask f sn dst) (n_perm sn)) content.

Lemma copy_cases umask f src dst : wf_tree f → nolink f dst →
  (∀ n, f !! dst = Some n → is_klink (n_kind n) = false) →
  (∃ e, sys_copy umask src dst f = fail_ f e) ∨
  (∃ sn content, dirpath f dst ∧ stat f src = Ok sn ∧ n_kind sn = KFile content ∧
     (f !! dst = None ∨ ∃ dn c, f !! dst = Some dn ∧ n_kind dn = KFile c) ∧
     sys_copy umask src dst f =
       Out (copy_states umask f sn content dst) (<[dst := copy_final umask f sn content dst]> f)
         (Ok tt)).
Proof.
  intros Hwf Hnl Hl. unfold sys_copy.
  destruct (stat f src) as [sn|e] eqn:Es; [|by left; eexists].
  destruct (n_kind sn) as [content| | | | | |] eqn:Ek; try (by left; eexists).
  destruct (lookup_f_cases f dst Hwf Hnl Hl) as [[e ->]|[-> Hd]]; [by left; eexists|].
  destruct (f !! dst) as [dn|] eqn:Edn.
  - destruct (n_kind dn) eqn:Ekd; try (by left; eexists).
    right. exists sn, content. repeat (split; [done|]). split; [eauto|].
    unfold copy_states, copy_final, copy_base. by rewrite Edn.
  - right. exists sn, content. repeat (split; [done|]). split; [eauto|].
    unfold copy_states, copy_final, copy_base. by rewrite Edn.
Qed.

Lemma copy_ok umask f src dst sn content : dirpath f dst → f !! dst = None →
  stat f src = Ok sn → n_kind sn = KFile content →
  sys_copy umask src dst f =
       Out (copy_states umask f sn content dst) (<[dst := copy_final umask f sn content dst]> f)
         (Ok tt).
Proof.
  intros Hd Hn Hs Hk. unfold sys_copy. rewrite Hs, Hk.
  rewrite lookup_f_dirpath; [|done|intros n Hn'; congruence].
  rewrite Hn. unfold copy_states, copy_final, copy_base. by rewrite Hn.
Qed.

(** ** Rename *)
Lemma rename_inv f o n : wf_tree f → nolink f o → nolink f n →
  (∃ e, sys_rename o n f = fail_ f e) ∨
  (∃ on, dirpath f o ∧ dirpath f n ∧ f !! o = Some on ∧ o = n ∧ sys_rename o n f = emit f) ∨
  (∃ on, dirpath f o ∧ dirpath f n ∧ f !! o = Some on ∧ under o n = false ∧ under n o = false ∧
         parent_dev f o = parent_dev f n ∧ n_dev on = parent_dev f o ∧
         below f n = [] ∧
         (∀ nn, f !! n = Some nn → is_kdir (n_kind nn) = is_kdir (n_kind on)) ∧
         sys_rename o n f = emit (moved f o n)).
Proof.
  intros Hwf Ho Hn. unfold sys_rename.
  destruct (lookup_l_cases f o Hwf Ho) as [[e ->]|[-> Hdo]]; [by left; eexists|].
  destruct (lookup_l_cases f n Hwf Hn) as [[e ->]|[-> Hdn]]; [by left; eexists|].
  destruct (f !! o) as [on|] eqn:Eo; [|by left; eexists].
  case_decide as Heq; [right; left; exists on; auto|].
  destruct (under o n) eqn:U1; [by left; eexists|].
  destruct (under n o) eqn:U2; [by left; eexists|].
  destruct (N.eqb_spec (parent_dev f o) (parent_dev f n)) as [Hd|]; simpl; [|by left; eexists].
  destruct (N.eqb_spec (n_dev on) (parent_dev f o)) as [Hd2|]; simpl; [|by left; eexists].
  destruct (f !! n) as [nn|] eqn:Enn.
  - destruct (is_kdir (n_kind on)) eqn:Kon.
    + destruct (is_kdir (n_kind nn)) eqn:Knn; [|by left; eexists].
      destruct (below f n) eqn:Eb; [|by left; eexists].
      destruct (N.eqb (n_dev nn) (parent_dev f n)); [|by left; eexists].
      right. right. exists on. repeat (split; [done|]). split; [|done].
      intros nn' E. injection E as <-. congruence.
    + destruct (is_kdir (n_kind nn)) eqn:Knn; [by left; eexists|].
      right. right. exists on. repeat (split; [done|]). split.
      * eapply wf_nondir_below; [done|exact Enn|]. intros Hk. by rewrite Hk in Knn.
      * split; [|done]. intros nn' E. injection E as <-. congruence.
  - right. right. exists on. repeat (split; [done|]). split; [by apply wf_none_below|].
    split; [|done]. done.
Qed.

Lemma rename_ok f o n on : dirpath f o → dirpath f n → f !! o = Some on →
  under o n = false → under n o = false → parent_dev f o = parent_dev f n →
  n_dev on = parent_dev f o →
  match f !! n with
  | None => True
  | Some nn => is_kdir (n_kind on) = false ∧ is_kdir (n_kind nn) = false
  end →
  sys_rename o n f = emit (moved f o n).
Proof.
  intros Ho Hn Eo U1 U2 Hd Hd2 Hnn. unfold sys_rename.
  rewrite !lookup_l_dirpath, Eo by done. rewrite decide_False by (intros ->; by rewrite under_refl in U1).
  rewrite U1, U2, Hd2, Hd, !N.eqb_refl. simpl.
  destruct (f !! n) as [nn|]; [|done]. destruct Hnn as [-> ->]. done.
Qed.

Lemma wf_moved f o n on : wf_tree f → dirpath f n → f !! o = Some on → n ≠ [] →
  under o n = false → under n o = false → below f n = [] → wf_tree (moved f o n).
Proof.
  intros Hwf Hdn Ho Hn U1 U2 Hb.
  assert (o ≠ []) as Hone by (intros ->; by rewrite under_nil in U1).
  assert (∀ p, under n p = false → under o p = false → moved f o n !! p = f !! p) as Hsame.
  { intros p H1 H2. rewrite lookup_moved by done. apply path_strip_None in H1. by rewrite H1, H2. }
  assert (∀ s, moved f o n !! (n ++ s) = f !! (o ++ s)) as Hnew.
  { intros s. rewrite lookup_moved by done. by rewrite path_strip_app. }
  assert (∀ p m, moved f o n !! p = Some m →
            (∃ s, p = n ++ s ∧ f !! (o ++ s) = Some m) ∨
            (under n p = false ∧ under o p = false ∧ f !! p = Some m)) as Hinv.
  { intros p m. rewrite lookup_moved by done. destruct (path_strip n p) as [s|] eqn:E.
    - intros Hm. left. exists s. split; [|done]. by apply path_strip_spec.
    - apply path_strip_None in E. destruct (under o p) eqn:E2; [done|]. auto. }
  split.
  - destruct (wf_root f Hwf) as (r & Hr & Hk). exists r. split; [|done].
    rewrite Hsame; [done| |].
    + apply under_false. intros [s Hs]. symmetry in Hs. by apply app_eq_nil in Hs as [-> _].
    + apply under_false. intros [s Hs]. symmetry in Hs. by apply app_eq_nil in Hs as [-> _].
  - intros p c m Hm. apply Hinv in Hm as [(s & E & Hm)|(H1 & H2 & Hm)].
    + destruct (path_snoc_case s) as [->|(s' & x & ->)].
      * rewrite app_nil_r in E. subst n.
        apply dirpath_snoc_inv in Hdn as [(d & Hd & Hk) _]. exists d. split; [|done].
        rewrite Hsame; [done| |].
        -- apply under_false. intros [s Hs]. apply (f_equal length) in Hs.
           rewrite !app_length in Hs. simpl in Hs. lia.
        -- destruct (under o p) eqn:E; [|done].
           assert (under o (p ++ [c]) = true) by (apply under_snoc; auto). congruence.
      * rewrite app_assoc in E. apply app_inj_tail in E as [-> ->].
        rewrite app_assoc in Hm. destruct (wf_parent f Hwf _ _ _ Hm) as (d & Hd & Hk).
        exists d. by rewrite Hnew.
    + destruct (wf_parent f Hwf _ _ _ Hm) as (d & Hd & Hk). exists d. split; [|done].
      rewrite Hsame; [done| |].
      * destruct (under n p) eqn:E; [|done].
        assert (under n (p ++ [c]) = true) by (apply under_snoc; auto). congruence.
      * destruct (under o p) eqn:E; [|done].
        assert (under o (p ++ [c]) = true) by (apply under_snoc; auto). congruence.
  - intros p c m Hm. apply Hinv in Hm as [(s & E & Hm)|(H1 & H2 & Hm)].
    + destruct (path_snoc_case s) as [->|(s' & x & ->)].
      * rewrite app_nil_r in E. subst n. by apply dirpath_snoc_inv in Hdn as (_ & ? & _).
      * rewrite app_assoc in E. apply app_inj_tail in E as [-> ->].
        rewrite app_assoc in Hm. by eapply wf_comp.
    + by eapply wf_comp.
  - intros p m Hm. apply Hinv in Hm as [(s & E & Hm)|(H1 & H2 & Hm)]; by eapply wf_perm.
Qed.

(** Renaming a leaf: only the two paths change. *)
Lemma moved_leaf f o n on : below f o = [] → below f n = [] → f !! o = Some on →
  under o n = false → under n o = false →
  moved f o n = <[n := on]> (delete o f).
Proof.
  intros Hbo Hbn Ho U1 U2. apply map_eq. intros q.
  rewrite lookup_moved by done. destruct (path_strip n q) as [s|] eqn:E.
  - apply path_strip_spec in E as ->. destruct s as [|c s].
    + by rewrite !app_nil_r, lookup_insert.
    + rewrite below_nil in Hbo. rewrite Hbo by done.
      rewrite lookup_insert_ne; [|intros Hx; symmetry in Hx; by apply snoc_ne_self in Hx].
      rewrite lookup_delete_ne.
      * rewrite below_nil in Hbn. by rewrite Hbn.
      * intros ->. by rewrite under_app in U2.
  - apply path_strip_None in E. rewrite lookup_insert_ne.
    + destruct (under o q) eqn:Uq.
      * apply under_spec in Uq as [s ->]. destruct s as [|c s].
        -- by rewrite app_nil_r, lookup_delete.
        -- rewrite lookup_delete_ne; [|intros Hx; symmetry in Hx; by apply snoc_ne_self in Hx].
           rewrite below_nil in Hbo. by rewrite Hbo.
      * rewrite lookup_delete_ne; [done|]. intros ->. by rewrite under_refl in Uq.
    + intros ->. by rewrite under_refl in E.
Qed.
