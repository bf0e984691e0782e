(** * What one accept pass does to the filesystem (rename-free change lists). *)
From Verif Require Export RmdirFacts.

(** ** Modes *)
Lemma mode_type n : N.land (st_mode n) S_IFMT = kind_type (n_kind n).
Proof.
  unfold st_mode. rewrite N.land_lor_distr_l, <-N.land_assoc.
  change (N.land o7777 S_IFMT) with 0%N. rewrite N.land_0_r, N.lor_0_r.
  by destruct (n_kind n).
Qed.
Lemma mode_perm n : N.land (st_mode n) o7777 = N.land (n_perm n) o7777.
Proof.
  unfold st_mode. rewrite N.land_lor_distr_l, <-N.land_assoc.
  change (N.land o7777 o7777) with o7777.
  by destruct (n_kind n).
Qed.
Lemma d_is_file_of p n : d_is_file (details_of p n) = is_kfile (n_kind n).
Proof. unfold d_is_file. simpl. rewrite mode_type. by destruct (n_kind n). Qed.
Lemma d_is_dir_of p n : d_is_dir (details_of p n) = is_kdir (n_kind n).
Proof. unfold d_is_dir. simpl. rewrite mode_type. by destruct (n_kind n). Qed.
Lemma d_is_symlink_of p n : d_is_symlink (details_of p n) = is_klink (n_kind n).
Proof. unfold d_is_symlink. simpl. rewrite mode_type. by destruct (n_kind n). Qed.
Lemma d_is_chr_of p n : d_is_chr (details_of p n) = match n_kind n with KChr _ => true | _ => false end.
Proof. unfold d_is_chr. simpl. rewrite mode_type. by destruct (n_kind n). Qed.

(** ** Accumulating loops *)
Fixpoint sum_by {A : Type} (g : A → nat) (l : list A) : nat :=
  match l with [] => 0 | x :: l' => g x + sum_by g l' end.

Lemma triple_pure {A : Type} (I P : fs → Prop) (φ : Prop) (m : M A) (Q : A → fs → Prop) :
  (φ → triple I P m Q) → triple I (λ s, P s ∧ φ) m Q.
Proof. intros H s [Hs Hφ]. by apply H. Qed.

Lemma triple_accum {A : Type} (I : fs → Prop) (P : list A → fs → Prop)
    (g : A → M (nat * list path)) (cnt : A → nat) (cl : A → list path) (l : list A) :
  (∀ pre s, P pre s → I s) →
  (∀ pre x post, l = pre ++ x :: post →
     triple I (P pre) (g x) (λ r s, P (pre ++ [x]) s ∧ r = (cnt x, cl x))) →
  triple I (P []) (accum l g) (λ r s, P l s ∧ r = (sum_by cnt l, mjoin (cl <$> l))).
Proof.
  intros HI Hstep.
  enough (∀ post pre, l = pre ++ post →
    triple I (P pre) (accum post g) (λ r s, P l s ∧ r = (sum_by cnt post, mjoin (cl <$> post)))) as H
    by (by apply (H l [])).
  induction post as [|x post IH]; intros pre ->.
  - simpl. rewrite app_nil_r. apply triple_ret; [apply HI|]. done.
  - cbn [accum]. eapply triple_bind; [by eapply Hstep|]. intros r.
    apply triple_pure. intros ->.
    specialize (IH (pre ++ [x])). rewrite <-app_assoc in IH. specialize (IH eq_refl).
    eapply triple_bind; [exact IH|].
    intros r'. apply triple_ret.
    + intros t [Ht _]. by eapply HI.
    + intros t [Ht ->]. split; [done|]. simpl. done.
Qed.

(** ** Vocabulary *)
Definition is_set (c : change) : Prop := ∃ t, c_op c = OSet t.

(** Host paths a change is about: the removed path or the path set. *)
Definition touches (c : change) (p : path) : Prop :=
  (c_op c = ORemove ∧ ∃ s, c_source c = Some s ∧ p = d_path s) ∨ (is_set c ∧ p = c_dest c).

(** Temporary names accept may use while installing a regular file. *)
Definition is_tmp (e : env) (c : change) (p : path) : Prop :=
  is_set c ∧ (∃ st, c_staged c = Some st ∧ d_is_file st = true) ∧
  ∃ i, p = with_extension (c_dest c) (e_uuid e 3 i).

Definition set_target (e : env) (c : change) (p : path) : Prop :=
  (is_set c ∧ p = c_dest c) ∨ is_tmp e c p.
Definition target (e : env) (c : change) (p : path) : Prop := touches c p ∨ is_tmp e c p.

Lemma set_target_target e c p : set_target e c p → target e c p.
Proof. intros [H|H]; [left; by right|by right]. Qed.

Definition removes (c : change) (p : path) : Prop :=
  c_op c = ORemove ∧ ∃ s, c_source c = Some s ∧ p = d_path s.

Definition sets_link (c : change) : Prop :=
  is_set c ∧ ∃ st, c_staged c = Some st ∧ d_is_symlink st = true.

Definition not_link (f : fs) (p : path) : Prop := ∀ n, f !! p = Some n → is_klink (n_kind n) = false.

Definition strictly_above (a p : path) : Prop := ∃ c r, p = a ++ c :: r.

(** A selected, rename-free change list that the real pass can be started on. *)
Record plan (e : env) (ub : path) (f0 : fs) (cs : list change) : Prop := {
  pl_wf : wf_tree f0;
  pl_norename : ∀ c, c ∈ cs → c_op c ≠ ORename;
  pl_staged : ∀ c st, c ∈ cs → c_staged c = Some st →
    ∃ n, f0 !! d_path st = Some n ∧ st = details_of (d_path st) n ∧ under ub (d_path st) = true;
  pl_outside : ∀ c p, c ∈ cs → target e c p → under ub p = false;
  pl_comps : ∀ c p, c ∈ cs → target e c p → Forall comp_ok p;
  pl_nolink : ∀ c p a, c ∈ cs → target e c p → strictly_above a p → not_link f0 a;
  pl_nolink_set : ∀ c p a, c ∈ cs → set_target e c p → strictly_above a p →
    ¬ ∃ c', c' ∈ cs ∧ sets_link c' ∧ c_dest c' = a;
  pl_tmp : ∀ c p, c ∈ cs → is_tmp e c p → f0 !! p = None ∧ ∀ c', c' ∈ cs → ¬ touches c' p;
  pl_unique : ∀ c c', c ∈ cs → c' ∈ cs → is_set c → is_set c' → c_dest c = c_dest c' → c = c';
}.

Lemma plan_perm e ub f0 cs cs' : cs ≡ₚ cs' → plan e ub f0 cs → plan e ub f0 cs'.
Proof.
  intros HP []. assert (∀ c, c ∈ cs ↔ c ∈ cs') as Hin by (intros c; by rewrite HP).
  split; try done; setoid_rewrite <-Hin; done.
Qed.

(** Same kind (content, link target), owner, group, and permission bits unless it is a symlink. *)
Definition same_entry (a b : node) : Prop :=
  n_kind a = n_kind b ∧ n_uid a = n_uid b ∧ n_gid a = n_gid b ∧
  (is_klink (n_kind a) = false → n_perm a = n_perm b).

(** Extended attributes after the change: a directory that was there keeps its own, everything else has none.
    [old] is what was at the destination. *)
Definition attrs_kept (old : option node) (a b : node) : Prop :=
  n_xattr b = match old with Some o => if is_kdir (n_kind a) then n_xattr o else ∅ | None => ∅ end.

Lemma set_at (p : path) (pre : list change) : (∃ c, c ∈ pre ∧ is_set c ∧ c_dest c = p) ∨
  ∀ c, c ∈ pre → is_set c → p ≠ c_dest c.
Proof.
  induction pre as [|c l IH]; [right; intros c Hc; by apply elem_of_nil in Hc|].
  destruct IH as [(c' & H1 & H2 & H3)|IH]; [left; exists c'; split; [by right|done]|].
  destruct (decide (c_dest c = p)) as [E|E].
  - destruct (c_op c) as [t| | |] eqn:Eo.
    { left. exists c. split; [by left|]. split; [by exists t|done]. }
    all: right; intros c' Hc' Hs; apply elem_of_cons in Hc' as [-> |Hc']; [destruct Hs; congruence|by apply IH].
  - right. intros c' Hc' Hs. apply elem_of_cons in Hc' as [-> |Hc']; [done|by apply IH].
Qed.

Section pass.
  Context (e : env) (ub : path) (f0 : fs) (cs : list change) (Hplan : plan e ub f0 cs).

  Definition T (q : path) : Prop := ∃ c, c ∈ cs ∧ target e c q.
  Definition removed (q : path) : Prop := ∃ c, c ∈ cs ∧ removes c q.

  (** Regular files being installed: old, removed or complete new content. *)
  Definition old_or_new (s : fs) : Prop :=
    ∀ c st n content, c ∈ cs → is_set c → c_staged c = Some st →
      f0 !! d_path st = Some n → n_kind n = KFile content →
      s !! c_dest c = f0 !! c_dest c ∨ (s !! c_dest c = None ∧ removed (c_dest c)) ∨
      ∃ m, s !! c_dest c = Some m ∧ n_kind m = KFile content.

  (** What stands at a path is what was there, what is being installed there, or a temporary file. *)
  Definition known (q : path) (n : node) : Prop :=
    (∃ k, f0 !! q = Some k ∧ n_kind n = n_kind k) ∨
    (∃ c st nst, c ∈ cs ∧ is_set c ∧ q = c_dest c ∧ c_staged c = Some st ∧ f0 !! d_path st = Some nst ∧ n_kind n = n_kind nst) ∨
    (∃ c, c ∈ cs ∧ is_tmp e c q ∧ is_kfile (n_kind n) = true).
  (** An entry is on the device of its directory, unless it was on another one before. *)
  Definition devices (s : fs) : Prop := ∀ a x k d, s !! (a ++ [x]) = Some k → s !! a = Some d →
    n_dev k = n_dev d ∨ ∃ k0 d0, f0 !! (a ++ [x]) = Some k0 ∧ f0 !! a = Some d0 ∧ n_dev k = n_dev k0 ∧ n_dev d = n_dev d0.
  Definition device_of (s : fs) (p : path) (n' : node) : Prop :=
    (∃ n, s !! p = Some n ∧ n_dev n' = n_dev n) ∨
    (n_dev n' = parent_dev s p ∧ (s !! p = None ∨ is_kdir (n_kind n') = false)).
  Lemma devices_insert s p n' : wf_tree s → wf_tree (<[p := n']> s) → devices s → device_of s p n' → devices (<[p := n']> s).
  Proof.
    intros Hwf Hwf' Hd Hp a x k d Hk Hda.
    destruct (decide (p = a ++ [x])) as [-> |Hne].
    - rewrite lookup_insert in Hk. injection Hk as <-. 
      rewrite lookup_insert_ne in Hda by (intros E; apply (f_equal length) in E; rewrite app_length in E; simpl in E; lia).
      destruct Hp as [(n & Hn & E)|[E _]].
      + rewrite E. by eapply Hd.
      + left. rewrite E. unfold parent_dev. by rewrite removelast_snoc, Hda.
    - rewrite lookup_insert_ne in Hk by done. destruct (decide (p = a)) as [-> |Hne2].
      + rewrite lookup_insert in Hda. injection Hda as <-. destruct Hp as [(n & Hn & E)|[_ [E|E]]].
        * destruct (Hd a x k n Hk Hn) as [H|(k0 & d0 & H1 & H2 & H3 & H4)]; [left; congruence|].
          right. exists k0, d0. split; [done|]. split; [done|]. split; [done|]. congruence.
        * destruct (wf_parent s Hwf a x k Hk) as (d & Hd' & _). congruence.
        * assert (<[a := n']> s !! (a ++ [x]) = Some k) as Hk' by (by rewrite lookup_insert_ne).
          destruct (wf_parent _ Hwf' a x k Hk') as (d & Hd' & Hdk). rewrite lookup_insert in Hd'. injection Hd' as <-.
          by rewrite Hdk in E.
      + rewrite lookup_insert_ne in Hda by done. by eapply Hd.
  Qed.
  Lemma devices_delete s p : devices s → devices (delete p s).
  Proof. intros Hd a x k d Hk Hda. apply lookup_delete_Some in Hk as [_ Hk]. apply lookup_delete_Some in Hda as [_ Hda]. by eapply Hd. Qed.

  Record inv (s : fs) : Prop := {
    inv_wf : wf_tree s;
    inv_frame : ∀ q, ¬ T q → s !! q = f0 !! q;
    inv_link : ∀ c p a, c ∈ cs → set_target e c p → strictly_above a p → not_link s a;
    inv_tmp : ∀ c p, c ∈ cs → is_tmp e c p → not_link s p;
    inv_atomic : old_or_new s;
    inv_kind : ∀ q n, s !! q = Some n → known q n;
    inv_dev : devices s;
  }.

  Lemma inv_init : inv f0.
  Proof.
    split.
    - apply Hplan.
    - done.
    - intros c p a Hc Ht Ha. apply (pl_nolink _ _ _ _ Hplan c p a); [done| |done].
      by apply set_target_target.
    - intros c p Hc Ht n Hn. destruct (pl_tmp _ _ _ _ Hplan c p Hc Ht) as [H _]. congruence.
    - intros c st n content *. by left.
    - intros q n Hn. left. by exists n.
    - intros a x k d Hk Hd. right. by exists k, d.
  Qed.

  Lemma inv_nolink s c p : inv s → c ∈ cs → set_target e c p → nolink s p.
  Proof.
    intros Hi Hc Ht q x r E. split.
    - pose proof (pl_comps _ _ _ _ Hplan c p Hc (set_target_target _ _ _ Ht)) as Hf. subst p.
      rewrite Forall_app, Forall_cons in Hf. by apply Hf.
    - apply (inv_link s Hi c p q Hc Ht). by exists x, r.
  Qed.

  Lemma staged_kept s c st : inv s → c ∈ cs → c_staged c = Some st →
    ∃ n, s !! d_path st = Some n ∧ f0 !! d_path st = Some n ∧ st = details_of (d_path st) n ∧
         under ub (d_path st) = true.
  Proof.
    intros Hi Hc Hst. destruct (pl_staged _ _ _ _ Hplan c st Hc Hst) as (n & Hn & E & Hu).
    exists n. split; [|done]. rewrite (inv_frame s Hi); [done|].
    intros (c' & Hc' & Ht). apply (pl_outside _ _ _ _ Hplan c' _ Hc') in Ht. congruence.
  Qed.

  (** Deleting a removed path keeps the invariant. *)
  Lemma inv_delete s c p : inv s → c ∈ cs → removes c p → wf_tree (delete p s) → inv (delete p s).
  Proof.
    intros Hi Hc Hr Hwf. split.
    - done.
    - intros q Hq. rewrite lookup_delete_ne; [by apply Hi|]. intros <-. apply Hq.
      exists c. split; [done|]. left. by left.
    - intros c' p' a Hc' Ht Ha n Hn. apply lookup_delete_Some in Hn as [_ Hn].
      by eapply (inv_link s Hi).
    - intros c' p' Hc' Ht n Hn. apply lookup_delete_Some in Hn as [_ Hn]. by eapply (inv_tmp s Hi).
    - intros c' st n content Hc' Hs Hst Hn Hk. destruct (decide (p = c_dest c')) as [->|Hne].
      + right. left. rewrite lookup_delete. split; [done|]. by exists c.
      + rewrite lookup_delete_ne by done. by eapply (inv_atomic s Hi).
    - intros q n Hn. apply lookup_delete_Some in Hn as [_ Hn]. by apply (inv_kind s Hi).
    - apply devices_delete, (inv_dev s Hi).
  Qed.

  (** Changing the node at the destination of a set keeps the invariant when the new node is a
      symlink only for symlink sets, and the complete new content for file sets. *)
  Lemma inv_dest s c n' : inv s → c ∈ cs → is_set c → wf_tree (<[c_dest c := n']> s) →
    (not_link s (c_dest c) → is_klink (n_kind n') = true → sets_link c) →
    (∀ st n content, c_staged c = Some st → f0 !! d_path st = Some n →
       n_kind n = KFile content → n_kind n' = KFile content) →
    known (c_dest c) n' → device_of s (c_dest c) n' →
    inv (<[c_dest c := n']> s).
  Proof.
    intros Hi Hc Hs Hwf Hl Hat Hkn Hdv.
    split.
    - done.
    - intros q Hq. rewrite lookup_insert_ne; [by apply Hi|]. intros <-. apply Hq. exists c. split; [done|]. left. by right.
    - intros c' p' a Hc' Ht Ha n Hn. destruct (decide (c_dest c = a)) as [<-|Hne].
      + rewrite lookup_insert in Hn. injection Hn as <-.
        destruct (is_klink (n_kind n')) eqn:E; [|done]. exfalso.
        apply (pl_nolink_set _ _ _ _ Hplan c' p' (c_dest c) Hc' Ht Ha).
        exists c. split; [done|]. split; [|done]. apply Hl; [|done].
        by eapply (inv_link s Hi).
      + rewrite lookup_insert_ne in Hn by done. by eapply (inv_link s Hi).
    - intros c' p' Hc' Ht n Hn. rewrite lookup_insert_ne in Hn; [by eapply (inv_tmp s Hi)|].
      intros <-. destruct (pl_tmp _ _ _ _ Hplan c' _ Hc' Ht) as [_ Hno].
      apply (Hno c Hc). by right.
    - intros c' st n content Hc' Hs' Hst Hn Hk. destruct (decide (c_dest c = c_dest c')) as [E|Hne].
      + assert (c = c') as <- by (by apply (pl_unique _ _ _ _ Hplan)).
        right. right. rewrite lookup_insert. exists n'. split; [done|]. by eapply Hat.
      + rewrite lookup_insert_ne by done. by eapply (inv_atomic s Hi).
    - intros q n Hn. destruct (decide (c_dest c = q)) as [<-|Hne].
      + rewrite lookup_insert in Hn. by injection Hn as <-.
      + rewrite lookup_insert_ne in Hn by done. by apply (inv_kind s Hi).
    - apply devices_insert; [apply Hi|done|apply (inv_dev s Hi)|done].
  Qed.

  (** Creating or changing a regular file at a temporary name keeps the invariant. *)
  Lemma inv_tmp_insert s c p n' content : inv s → c ∈ cs → is_tmp e c p →
    wf_tree (<[p := n']> s) → n_kind n' = KFile content → n_dev n' = parent_dev s p → inv (<[p := n']> s).
  Proof.
    intros Hi Hc Ht Hwf Hk Hdv.
    destruct (pl_tmp _ _ _ _ Hplan c p Hc Ht) as [_ Hno].
    split.
    - done.
    - intros q Hq. rewrite lookup_insert_ne; [by apply Hi|]. intros <-. apply Hq. exists c. split; [done|].
      by right.
    - intros c' p' a Hc' Ht' Ha n Hn. destruct (decide (p = a)) as [<-|Hne].
      + rewrite lookup_insert in Hn. injection Hn as <-. by rewrite Hk.
      + rewrite lookup_insert_ne in Hn by done. by eapply (inv_link s Hi).
    - intros c' p' Hc' Ht' n Hn. destruct (decide (p = p')) as [<-|Hne].
      + rewrite lookup_insert in Hn. injection Hn as <-. by rewrite Hk.
      + rewrite lookup_insert_ne in Hn by done. by eapply (inv_tmp s Hi).
    - intros c' st n content' Hc' Hs' Hst Hn Hk'. rewrite lookup_insert_ne; [by eapply (inv_atomic s Hi)|].
      intros ->. apply (Hno c' Hc'). by right.
    - intros q n Hn. destruct (decide (p = q)) as [<-|Hne].
      + rewrite lookup_insert in Hn. injection Hn as <-. right. right. exists c. split; [done|]. split; [done|]. by rewrite Hk.
      + rewrite lookup_insert_ne in Hn by done. by apply (inv_kind s Hi).
    - apply devices_insert; [apply Hi|done|apply (inv_dev s Hi)|]. right. split; [done|]. right. by rewrite Hk.
  Qed.
  Lemma inv_tmp_delete s c p : inv s → c ∈ cs → is_tmp e c p → wf_tree (delete p s) → inv (delete p s).
  Proof.
    intros Hi Hc Ht Hwf.
    destruct (pl_tmp _ _ _ _ Hplan c p Hc Ht) as [_ Hno].
    split.
    - done.
    - intros q Hq. rewrite lookup_delete_ne; [by apply Hi|]. intros <-. apply Hq. exists c. split; [done|].
      by right.
    - intros c' p' a Hc' Ht' Ha n Hn. apply lookup_delete_Some in Hn as [_ Hn].
      by eapply (inv_link s Hi).
    - intros c' p' Hc' Ht' n Hn. apply lookup_delete_Some in Hn as [_ Hn]. by eapply (inv_tmp s Hi).
    - intros c' st n content' Hc' Hs' Hst Hn Hk'. rewrite lookup_delete_ne; [by eapply (inv_atomic s Hi)|].
      intros ->. apply (Hno c' Hc'). by right.
    - intros q n Hn. apply lookup_delete_Some in Hn as [_ Hn]. by apply (inv_kind s Hi).
    - apply devices_delete, (inv_dev s Hi).
  Qed.

  (** ** Phase 1 *)
  Definition after_removes (pre : list change) (s : fs) : Prop :=
    inv s ∧ ∀ q, s !! q = f0 !! q ∧ (∀ c, c ∈ pre → ¬ removes c q) ∨
                 (s !! q = None ∧ ∃ c, c ∈ pre ∧ removes c q).

  Definition clean_removed (c : change) : list path :=
    match c_op c with
    | ORemove => match c_staged c with Some d => [d_path d] | None => [] end
    | _ => []
    end.
  Definition count_removed (c : change) : nat := match c_op c with ORemove => 1 | _ => 0 end.

  Lemma rm_nolink pre c s p : c ∈ cs → removes c p → after_removes pre s → nolink s p.
  Proof.
    intros Hc Hr [_ Hs] q x r E.
    assert (target e c p) as Ht by (left; by left). split.
    - pose proof (pl_comps _ _ _ _ Hplan c p Hc Ht) as Hf. subst p.
      rewrite Forall_app, Forall_cons in Hf. by apply Hf.
    - intros n Hn. destruct (Hs q) as [[E' _]|[E' _]]; [|congruence].
      eapply (pl_nolink _ _ _ _ Hplan c p q); [done|done|by exists x, r|congruence].
  Qed.

  Lemma remove_step pre c : c ∈ cs → 
    triple inv (after_removes pre) (accept_remove false c)
      (λ r s, after_removes (pre ++ [c]) s ∧ r = (count_removed c, clean_removed c)).
  Proof.
    intros Hc.
    assert (∀ p, removes c p → ∀ s, after_removes pre s → wf_tree (delete p s) →
              after_removes (pre ++ [c]) (delete p s)) as Hdel.
    { intros p Hr s [Hi Hs] Hwf. split; [by eapply inv_delete|]. intros q.
      destruct (decide (p = q)) as [<-|Hne].
      - right. rewrite lookup_delete. split; [done|]. exists c. set_solver.
      - rewrite lookup_delete_ne by done. destruct (Hs q) as [[H1 H2]|[H1 (c' & H2 & H3)]].
        + left. split; [done|]. intros c' Hc'. apply elem_of_app in Hc' as [Hc'|Hc']; [by apply H2|].
          apply elem_of_list_singleton in Hc' as ->. intros (_ & d & Hd & ->).
          destruct Hr as (_ & d' & Hd' & ->). congruence.
        + right. split; [done|]. exists c'. set_solver. }
    assert (c_op c ≠ ORemove → triple inv (after_removes pre) (ret_ (0, []))
              (λ r s, after_removes (pre ++ [c]) s ∧ r = (count_removed c, clean_removed c))) as Hskip.
    { intros Hne. apply triple_ret; [by intros s [Hs _]|]. intros s [Hi Hs]. split.
      - split; [done|]. intros q. destruct (Hs q) as [[H1 H2]|[H1 (c' & H2 & H3)]].
        + left. split; [done|]. intros c' Hc'. apply elem_of_app in Hc' as [Hc'|Hc']; [by apply H2|].
          apply elem_of_list_singleton in Hc' as ->. by intros [? _].
        + right. split; [done|]. exists c'. set_solver.
      - unfold count_removed, clean_removed. by destruct (c_op c). }
    unfold accept_remove. destruct (c_op c) eqn:Eop; try (apply Hskip; done).
    destruct (c_source c) as [d|] eqn:Ed; [|apply triple_throw; by intros s [Hs _]].
    assert (removes c (d_path d)) as Hr by (split; [done|]; by exists d).
    eapply triple_bind with (Q := λ _ s, after_removes (pre ++ [c]) s).
    - destruct (d_is_file d || d_is_symlink d).
      + intros s Hs. pose proof (proj1 Hs) as Hi.
        destruct (unlink_cases s (d_path d)) as [[er ->]|(n & Hd & Hn & Hk & Hne & -> & Hwf)].
        * apply Hi.
        * by eapply rm_nolink.
        * simpl. split; [constructor|]. done.
        * assert (after_removes (pre ++ [c]) (delete (d_path d) s)) as Ha by (by apply Hdel).
          simpl. split; [constructor; [apply Ha|constructor]|]. split; [apply Ha|]. done.
      + destruct (d_is_dir d); [|apply triple_throw; by intros s [Hs _]].
        intros s Hs. pose proof (proj1 Hs) as Hi.
        destruct (rmdir_cases s (d_path d)) as [[er ->]|(n & Hd & Hn & Hk & Hne & Hb & -> & Hwf)].
        * apply Hi.
        * by eapply rm_nolink.
        * simpl. split; [constructor|]. done.
        * assert (after_removes (pre ++ [c]) (delete (d_path d) s)) as Ha by (by apply Hdel).
          simpl. split; [constructor; [apply Ha|constructor]|]. split; [apply Ha|]. done.
    - intros []. apply triple_ret; [by intros s [Hs _]|]. intros s Hs. split; [done|].
      unfold count_removed, clean_removed. by rewrite Eop.
  Qed.

  Lemma removes_pass l : l ≡ₚ cs →
    triple inv (λ s, s = f0) (accum l (accept_remove false))
      (λ r s, after_removes l s ∧ r = (sum_by count_removed l, mjoin (clean_removed <$> l))).
  Proof.
    intros HP. eapply triple_weaken.
    - apply (triple_accum inv after_removes); [by intros pre s [Hs _]|].
      intros pre c post ->. apply remove_step. rewrite <-HP. set_solver.
    - intros s ->. split; [apply inv_init|]. intros q. left. split; [done|]. intros c Hc. set_solver.
    - done.
  Qed.

  (** ** Phase 3 *)
  Definition finish (n : node) (st : details) : node :=
    let n1 := chowned n (d_uid st) (d_gid st) in
    if N.eqb (N.land (d_mode st) S_IFMT) S_IFLNK then n1
    else set_perm n1 (N.land (d_mode st) o7777).

  Lemma perms_step c st s n : c ∈ cs → is_set c → c_staged c = Some st → inv s →
    s !! c_dest c = Some n →
    (∀ ns content, f0 !! d_path st = Some ns → n_kind ns = KFile content → n_kind n = KFile content) →
    (is_klink (n_kind n) = true → d_is_symlink st = true ∨ ¬ not_link s (c_dest c)) →
    triple inv (λ s', s' = s) (set_permissions (c_dest c) st)
      (λ _ s', s' = <[c_dest c := finish n st]> s ∧ inv s' ∧
               (d_is_symlink st = true ∨ is_klink (n_kind n) = false)).
  Proof.
    intros Hc Hs Hst Hi Hn Hfile Hlink.
    assert (set_target e c (c_dest c)) as Ht by (by left).
    assert (∀ n', n_kind n' = n_kind n → n_dev n' = n_dev n → wf_tree (<[c_dest c := n']> s) → inv (<[c_dest c := n']> s))
      as Hupd.
    { intros n' Hk Hdn Hwf. apply inv_dest; try done.
      - rewrite Hk. intros Hnl Hl. destruct (Hlink Hl) as [H|H]; [|done].
        split; [done|]. by exists st.
      - intros st' ns content Hst' Hns Hkf. rewrite Hk. rewrite Hst in Hst'. injection Hst' as <-.
        by eapply Hfile.
      - unfold known. rewrite Hk. by apply (inv_kind s Hi).
      - left. by exists n. }
    unfold set_permissions.
    eapply triple_bind with (Q := λ _ s', s' = <[c_dest c := chowned n (d_uid st) (d_gid st)]> s ∧ inv s').
    - intros s' ->.
      destruct (lchown_cases s (c_dest c) (d_uid st) (d_gid st) (inv_wf s Hi)
                  (inv_nolink s c _ Hi Hc Ht)) as [[er ->]|(m & Hd & Hm & -> & Hwf)].
      + simpl. split; [constructor|]. done.
      + rewrite Hn in Hm. injection Hm as <-.
        assert (inv (<[c_dest c := chowned n (d_uid st) (d_gid st)]> s)) as Hi' by (by apply Hupd).
        simpl. split; [by constructor|]. done.
    - intros []. destruct (N.eqb (N.land (d_mode st) S_IFMT) S_IFLNK) eqn:El.
      + apply triple_ret; [by intros s' [_ ?]|]. intros s' [-> Hi']. split.
        * unfold finish. by rewrite El.
        * split; [done|]. by left.
      + intros s' [-> Hi'].
        destruct (lchmod_cases _ (c_dest c) (d_mode st) (inv_wf _ Hi')
                  (inv_nolink _ c _ Hi' Hc Ht)) as [[er ->]|(m & Hd & Hm & Hml & -> & Hwf)].
        * simpl. split; [constructor|]. done.
        * rewrite lookup_insert in Hm. injection Hm as <-.
          rewrite insert_insert in Hwf |- *.
          assert (inv (<[c_dest c := set_perm (chowned n (d_uid st) (d_gid st))
                                       (N.land (d_mode st) o7777)]> s)) as Hi2 by (by apply Hupd).
          simpl. split; [by constructor|]. split; [done|]. intros a _. split.
          -- unfold finish. by rewrite El.
          -- split; [done|]. by right.
  Qed.

  Lemma finish_same p nst n : (n_perm nst < 4096)%N → n_kind n = n_kind nst →
    same_entry nst (finish n (details_of p nst)).
  Proof.
    intros Hp Hk. unfold finish. cbn [d_mode d_uid d_gid details_of].
    rewrite mode_type. unfold same_entry.
    assert ((kind_type (n_kind nst) =? S_IFLNK)%N = is_klink (n_kind nst)) as -> by (by destruct (n_kind nst)).
    destruct (is_klink (n_kind nst)) eqn:El; simpl.
    - done.
    - rewrite Hk. repeat (split; [done|]). intros _.
      rewrite mode_perm, land_7777_id by done. done.
  Qed.

  Lemma finish_xattr n st : n_xattr (finish n st) = n_xattr n.
  Proof. unfold finish. by destruct (N.eqb _ _). Qed.

  Definition after_sets (s1 : fs) (pre : list change) (s : fs) : Prop :=
    inv s ∧
    (∀ c, c ∈ pre → is_set c → ∃ st nst n, c_staged c = Some st ∧ f0 !! d_path st = Some nst ∧
        s !! c_dest c = Some n ∧ same_entry nst n ∧ attrs_kept (s1 !! c_dest c) nst n) ∧
    (∀ q, (∀ c, c ∈ pre → is_set c → q ≠ c_dest c) → s !! q = s1 !! q).

  Definition count_set (c : change) : nat :=
    match c_op c with OSet _ => if is_actually_modified c then 1 else 0 | _ => 0 end.
  Definition clean_set (c : change) : list path :=
    match c_op c with OSet _ => match c_staged c with Some d => [d_path d] | None => [] end | _ => [] end.

  Lemma after_sets_step s1 pre c st nst s n : c ∈ cs → (∀ c', c' ∈ pre → c' ∈ cs) →
    is_set c → c_staged c = Some st →
    f0 !! d_path st = Some nst → after_sets s1 pre s → inv (<[c_dest c := n]> s) → same_entry nst n →
    attrs_kept (s1 !! c_dest c) nst n →
    after_sets s1 (pre ++ [c]) (<[c_dest c := n]> s).
  Proof.
    intros Hc Hpre Hs Hst Hnst (Hi & H1 & H2) Hi' Hsame Hattr. split; [done|]. split.
    - intros c' Hc' Hs'. destruct (decide (c_dest c = c_dest c')) as [E|Hne].
      + rewrite <-E, lookup_insert.
        assert (c' ∈ cs) as Hin.
        { apply elem_of_app in Hc' as [Hc'|Hc']; [by apply Hpre|].
          by apply elem_of_list_singleton in Hc' as ->. }
        assert (c = c') as <- by (by apply (pl_unique _ _ _ _ Hplan)).
        by exists st, nst, n.
      + rewrite lookup_insert_ne by done.
        apply elem_of_app in Hc' as [Hc'|Hc']; [by apply H1|].
        apply elem_of_list_singleton in Hc' as ->. done.
    - intros q Hq. rewrite lookup_insert_ne.
      + apply H2. intros c' Hc' Hs'. apply Hq; [set_solver|done].
      + intros <-. eapply Hq; [|exact Hs|done]. set_solver.
  Qed.

  Lemma set_step s1 pre i c : c ∈ cs → (∀ c', c' ∈ pre → c' ∈ cs) →
    (∀ q, s1 !! q = f0 !! q ∨ s1 !! q = None) →
    triple inv (after_sets s1 pre) (accept_set e 2 false (i, c))
      (λ r s, after_sets s1 (pre ++ [c]) s ∧ r = (count_set c, clean_set c)).
  Proof.
    intros Hc Hpre Hs1.
    assert (¬ is_set c → ∀ s, after_sets s1 pre s → after_sets s1 (pre ++ [c]) s) as Hskip.
    { intros Hns s (Hi & H1 & H2). split; [done|]. split.
      - intros c' Hc' Hs'. apply elem_of_app in Hc' as [Hc'|Hc']; [by apply H1|].
        by apply elem_of_list_singleton in Hc' as ->.
      - intros q Hq. apply H2. intros c' Hc' Hs'. apply Hq; [set_solver|done]. }
    unfold accept_set, count_set, clean_set. destruct (c_op c) as [ty| | |er] eqn:Eop.
    2: { apply triple_ret; [by intros s [? _]|]. intros s Hs. split; [|done].
         apply Hskip; [|done]. intros [t Ht]. congruence. }
    2: { by apply (pl_norename _ _ _ _ Hplan) in Eop. }
    2: { apply triple_throw. by intros s [? _]. }
    assert (is_set c) as Hset by (by exists ty).
    destruct (c_staged c) as [st|] eqn:Est; [|apply triple_throw; by intros s [? _]].
    destruct (pl_staged _ _ _ _ Hplan c st Hc Est) as (nst & Hnst & Hdst & Hu).
    assert (n_perm nst < 4096)%N as Hperm by (eapply wf_perm; [apply Hplan|done]).
    assert (set_target e c (c_dest c)) as Ht by (by left).
    (* the common last step *)
    assert (∀ s n, after_sets s1 pre s → inv (<[c_dest c := n]> s) → n_kind n = n_kind nst →
       (is_klink (n_kind n) = true → d_is_symlink st = true) → attrs_kept (s1 !! c_dest c) nst n →
       triple inv (λ s', s' = <[c_dest c := n]> s)
         (set_permissions (c_dest c) st ;;;
          ret_ (if is_actually_modified c then 1 else 0, [d_path st]))
         (λ r s', after_sets s1 (pre ++ [c]) s' ∧
                  r = (if is_actually_modified c then 1 else 0, [d_path st]))) as Hlast.
    { intros s n Ha Hi Hk Hl Hat.
      eapply triple_bind.
      - apply (perms_step c st (<[c_dest c := n]> s) n); try done.
        + by rewrite lookup_insert.
        + intros ns content Hns Hkf. rewrite Hnst in Hns. injection Hns as <-. congruence.
        + intros Hlk. left. by apply Hl.
      - intros []. apply triple_ret; [by intros s' (_ & ? & _)|].
        intros s' (-> & Hi' & _). split; [|done]. rewrite insert_insert in Hi' |- *.
        eapply after_sets_step; try done.
        + rewrite Hdst. by apply finish_same.
        + unfold attrs_kept in Hat |- *. by rewrite finish_xattr. }
    destruct (d_is_file st) eqn:Ef.
    { (* regular file *)
      set (tmp := with_extension (c_dest c) (e_uuid e 3 i)).
      assert (is_tmp e c tmp) as Htmp by (split; [done|]; split; [by exists st|]; by exists i).
      destruct (pl_tmp _ _ _ _ Hplan c tmp Hc Htmp) as [Htn Hno].
      assert (tmp ≠ c_dest c) as Hne by (intros E; apply (Hno c Hc); rewrite E; by right).
      assert (set_target e c tmp) as Htt by (by right).
      rewrite Hdst, d_is_file_of in Ef.
      destruct (n_kind nst) as [content| | | | | |] eqn:Ek; try done.
      eapply triple_bind with (Q := λ _ s', ∃ s n, s' = <[tmp := n]> s ∧ after_sets s1 pre s ∧
         s !! tmp = None ∧ inv s' ∧ n_kind n = KFile content ∧ n_xattr n = ∅).
      { intros s Ha. pose proof (proj1 Ha) as Hi.
        assert (s !! tmp = None) as Hst.
        { destruct Ha as (_ & _ & H2). rewrite H2.
          - destruct (Hs1 tmp) as [-> | ->]; done.
          - intros c' Hc' Hs' E. apply (Hno c' (Hpre c' Hc')). by right. }
        assert (tmp ≠ []) as Hroot.
        { intros E. destruct (wf_root s (inv_wf s Hi)) as (r & Hr & _). congruence. }
        destruct (copy_cases (e_umask e) s (d_path st) tmp (inv_wf s Hi)
                    (inv_nolink s c tmp Hi Hc Htt) ltac:(intros n Hn; congruence))
          as [[er ->]|(sn & content' & Hd & Hsn & Hk & _ & ->)].
        { simpl. split; [constructor|]. done. }
        destruct (staged_kept s c st Hi Hc Est) as (nst' & Hns' & Hns0 & _).
        assert (sn = nst ∧ content' = content) as [-> ->].
        { rewrite (stat_dom s _ nst') in Hsn; [|apply Hi|done|].
          - split; congruence.
          - assert (nst' = nst) as -> by congruence. by rewrite Ek. }
        assert (∀ n k, n_kind n = KFile k → (n_perm n < 4096)%N → n_dev n = parent_dev s tmp → inv (<[tmp := n]> s)) as Hins.
        { intros n k Hkn Hpn Hdn. eapply inv_tmp_insert; try done. apply wf_insert; [apply Hi|done|done|].
          right. split; [done|]. apply wf_none_below; [apply Hi|done]. }
        assert (copy_base (e_umask e) s nst tmp =
                Node (KFile "") (and_not (n_perm nst) (e_umask e)) 0 0 (parent_dev s tmp) ∅) as Ecb
          by (unfold copy_base; by rewrite Hst).
        assert (inv (<[tmp := copy_final (e_umask e) s nst content tmp]> s)) as Hfin.
        { apply (Hins _ content); unfold copy_final; rewrite Ecb; done. }
        split; [|split].
        - unfold copy_states. rewrite Ecb. cbn [o_trace]. constructor; [|constructor].
          + apply (Hins _ ""); [done|by apply and_not_lt|done].
          + apply (Hins _ ""); done.
          + apply Forall_fmap, Forall_true. intros k. cbn. by apply (Hins _ k).
        - exact Hfin.
        - intros [] _. exists s, (copy_final (e_umask e) s nst content tmp).
          split; [done|]. split; [done|]. split; [done|]. split; [done|]. split; [done|].
          unfold copy_final. by rewrite Ecb. }
      intros []. eapply triple_bind with (Q := λ _ s', ∃ s n, s' = <[c_dest c := n]> s ∧
         after_sets s1 pre s ∧ inv s' ∧ n_kind n = KFile content ∧ n_xattr n = ∅).
      { intros s' (s & n & -> & Ha & Hst & Hi & Hk & Hx).
        destruct (rename_inv (<[tmp := n]> s) tmp (c_dest c) (inv_wf _ Hi)
                    (inv_nolink _ c tmp Hi Hc Htt) (inv_nolink _ c _ Hi Hc Ht))
          as [[er ->]|[(on & _ & _ & _ & E & _)|(on & Hd1 & Hd2 & Hon & U1 & U2 & Hpd & Hdev & Hb & _ & ->)]].
        - simpl. split; [constructor|]. done.
        - done.
        - rewrite lookup_insert in Hon. injection Hon as <-.
          assert (c_dest c ≠ []) as Hdne by (intros E; rewrite E, under_nil in U2; done).
          assert (below (<[tmp := n]> s) tmp = []) as Hbt.
          { eapply wf_nondir_below; [apply Hi|by rewrite lookup_insert|]. by rewrite Hk. }
          assert (wf_tree (moved (<[tmp := n]> s) tmp (c_dest c))) as Hwf.
          { apply (wf_moved _ _ _ n); try done; [apply Hi|by rewrite lookup_insert]. }
          rewrite (moved_leaf _ _ _ n) in Hwf |- * by (try done; by rewrite lookup_insert).
          rewrite delete_insert in Hwf |- * by done.
          assert (inv (<[c_dest c := n]> s)) as Hi'.
          { apply inv_dest; try done.
            - apply Ha.
            - rewrite Hk. done.
            - intros st' ns k Hst' Hns Hkf. assert (st' = st) as -> by congruence. congruence.
            - right. left. exists c, st, nst. rewrite Hk, Ek. done.
            - right. split; [|right; by rewrite Hk]. 
              rewrite Hdev, Hpd. unfold parent_dev. rewrite lookup_insert_ne; [done|].
              destruct (path_snoc_case (c_dest c)) as [?|(q & x & E)]; [done|]. rewrite E, removelast_snoc. intros ->.
              rewrite E, under_app in U1. discriminate U1. }
          simpl. split; [by constructor|]. split; [done|]. intros _ _. by exists s, n. }
      intros []. intros s' (s & n & -> & Ha & Hi & Hk & Hx).
      apply (Hlast s n); try done; [by rewrite Hk|].
      unfold attrs_kept. rewrite Hx, Ek. by destruct (s1 !! c_dest c). }
    destruct (d_is_symlink st) eqn:El.
    { (* symlink *)
      rewrite Hdst, d_is_symlink_of in El.
      destruct (n_kind nst) as [| |tg| | | |] eqn:Ek; try done.
      eapply triple_bind with (Q := λ t s, after_sets s1 pre s ∧ t = tg).
      { apply triple_get; [by intros s [? _]|]. intros s t Ha. pose proof (proj1 Ha) as Hi.
        destruct (staged_kept s c st Hi Hc Est) as (nst' & Hns' & Hns0 & _).
        unfold read_link. rewrite (lstat_dom s _ nst') by (done || apply Hi). simpl.
        assert (nst' = nst) as -> by congruence. rewrite Ek. by intros [= ->]. }
      intros t. apply triple_pure. intros ->.
      eapply triple_bind with (Q := λ od s, after_sets s1 pre s ∧ from_path s (c_dest c) = Ok od).
      { apply triple_get; [by intros s [? _]|]. done. }
      intros od.
      assert (∀ s n', inv s → wf_tree (<[c_dest c := n']> s) → n_kind n' = KLink tg → n_dev n' = parent_dev s (c_dest c) →
                inv (<[c_dest c := n']> s)) as Hins.
      { intros s n' Hi Hwf Hk Hdn. apply inv_dest; try done.
        - intros _ _. split; [done|]. exists st. split; [done|]. rewrite Hdst, d_is_symlink_of. by rewrite Ek.
        - intros st' ns k Hst' Hns Hkf. assert (st' = st) as -> by congruence. congruence.
        - right. left. exists c, st, nst. rewrite Hk, Ek. done.
        - right. split; [done|]. right. by rewrite Hk. }
      assert (∀ s, inv s → wf_tree (delete (c_dest c) s) → inv (delete (c_dest c) s)) as Hdel.
      { intros s Hi Hwf. split.
        - done.
        - intros q Hq. rewrite lookup_delete_ne; [by apply Hi|]. intros <-. apply Hq. exists c. split; [done|]. left. by right.
        - intros c' p' a Hc' Ht' Ha n Hn. apply lookup_delete_Some in Hn as [_ Hn].
          by eapply (inv_link s Hi).
        - intros c' p' Hc' Ht' n Hn. apply lookup_delete_Some in Hn as [_ Hn]. by eapply (inv_tmp s Hi).
        - intros c' st' n content' Hc' Hs' Hst' Hn Hk'. rewrite lookup_delete_ne; [by eapply (inv_atomic s Hi)|].
          intros E. assert (c = c') as <- by (by apply (pl_unique _ _ _ _ Hplan)).
          assert (st' = st) as -> by congruence. congruence.
        - intros q n Hn. apply lookup_delete_Some in Hn as [_ Hn]. by apply (inv_kind s Hi).
        - apply devices_delete, (inv_dev s Hi). }
      eapply triple_bind with (Q := λ _ s', inv s' ∧ (s' !! c_dest c = None → 
          ∃ s, after_sets s1 pre s ∧ ∀ q, q ≠ c_dest c → s' !! q = s !! q)).
      { destruct od as [d|].
        - intros s [Ha Hfp]. pose proof (proj1 Ha) as Hi.
          destruct (unlink_cases s (c_dest c) (inv_wf s Hi) (inv_nolink s c _ Hi Hc Ht))
            as [[er ->]|(m & Hd & Hm & Hk & Hne & -> & Hwf)].
          + simpl. split; [constructor|]. split; [done|]. done.
          + assert (inv (delete (c_dest c) s)) as Hi' by (by apply Hdel).
            simpl. split; [by constructor|]. split; [done|]. intros _ _. split; [done|]. intros _.
            exists s. split; [done|]. intros q Hq. by rewrite lookup_delete_ne.
        - apply triple_ret; [by intros s [[? _] _]|]. intros s [Ha _]. split; [apply Ha|].
          intros _. by exists s. }
      intros []. eapply triple_bind with (Q := λ _ s', ∃ s n, s' = <[c_dest c := n]> s ∧
         after_sets s1 pre s ∧ inv s' ∧ n_kind n = KLink tg ∧ n_xattr n = ∅).
      { intros s' [Hi Hex].
        destruct (symlink_cases tg s' (c_dest c) (inv_wf s' Hi) (inv_nolink s' c _ Hi Hc Ht))
          as [[er ->]|(Hd & Hnone & -> & Hwf)].
        - simpl. split; [constructor|]. done.
        - assert (inv (<[c_dest c := new_link tg s' (c_dest c)]> s')) as Hi' by (by apply Hins).
          simpl. split; [by constructor|]. split; [done|]. intros _ _.
          destruct (Hex Hnone) as (s & Ha & Hs). exists s, (new_link tg s' (c_dest c)).
          split; [|done]. apply map_eq. intros q. destruct (decide (c_dest c = q)) as [<-|Hq].
          + by rewrite !lookup_insert.
          + rewrite !lookup_insert_ne by done. by apply Hs. }
      intros []. intros s' (s & n & -> & Ha & Hi & Hk & Hx).
      apply (Hlast s n); try done.
      unfold attrs_kept. rewrite Hx, Ek. by destruct (s1 !! c_dest c). }
    destruct (d_is_dir st) eqn:Ed; [|apply triple_throw; by intros s [? _]].
    (* directory *)
    rewrite Hdst, d_is_dir_of in Ed. apply is_kdir_true in Ed.
    assert (∀ ns content, f0 !! d_path st = Some ns → n_kind ns = KFile content → False) as Hnf.
    { intros ns content Hns Hkf. congruence. }
    assert (∀ s, after_sets s1 pre s → (∃ n, s !! c_dest c = Some n ∧ attrs_kept (s1 !! c_dest c) nst n) ∨
       s !! c_dest c = s1 !! c_dest c) as Hold.
    { intros s (_ & H1 & H2).
      destruct (set_at (c_dest c) pre) as [(c' & Hc' & Hs' & E)|He].
      - left. assert (c' = c) as -> by (apply (pl_unique _ _ _ _ Hplan); try done; by apply Hpre).
        destruct (H1 c Hc' Hs') as (st' & nst' & n & Est' & Hn' & Hn & _ & Hat).
        assert (st' = st) as -> by congruence. assert (nst' = nst) as -> by congruence. by exists n.
      - right. by apply H2. }
    eapply triple_bind with (Q := λ isd s, after_sets s1 pre s ∧
                                  isd = exists_ s (c_dest c) && is_dir s (c_dest c)).
    { apply triple_get; [by intros s [? _]|]. intros s b Ha [= <-]. done. }
    intros isd.
    eapply triple_bind with (Q := λ _ s', ∃ s n, s' = <[c_dest c := n]> s ∧ after_sets s1 pre s ∧
        inv s' ∧ (is_klink (n_kind n) = true → ¬ not_link s' (c_dest c)) ∧
        (is_klink (n_kind n) = false → n_kind n = KDir) ∧ attrs_kept (s1 !! c_dest c) nst n).
    { destruct isd.
      - apply triple_ret; [by intros s [[? _] _]|]. intros s [Ha Hb]. pose proof (proj1 Ha) as Hi.
        symmetry in Hb. apply andb_true_iff in Hb as [_ Hb].
        assert (∃ n, s !! c_dest c = Some n) as [n Hn].
        { unfold is_dir in Hb. destruct (s !! c_dest c) eqn:E; [by eexists|].
          unfold stat in Hb.
          destruct (lookup_f_cases s (c_dest c) (inv_wf s Hi) (inv_nolink s c _ Hi Hc Ht)
                      ltac:(intros n Hn; congruence)) as [[er Hl]|[Hl _]]; rewrite Hl in Hb; simpl in Hb.
          - done.
          - by rewrite E in Hb. }
        exists s, n. split; [by rewrite insert_id|]. split; [done|]. split; [done|]. split; [|split].
        + intros Hl Hnl. rewrite (Hnl n Hn) in Hl. done.
        + intros Hl. unfold is_dir in Hb. rewrite (stat_dom s _ n) in Hb by (done || apply Hi).
          by apply is_kdir_true.
        + destruct (Hold s Ha) as [(n0 & Hn0 & Ht0)|Hs0].
          * rewrite Hn in Hn0. by injection Hn0 as <-.
          * unfold attrs_kept. rewrite <-Hs0, Hn, Ed. done.
      - intros s [Ha _]. pose proof (proj1 Ha) as Hi.
        destruct (mkdir_cases (e_umask e) s (c_dest c) (inv_wf s Hi) (inv_nolink s c _ Hi Hc Ht))
          as [[er ->]|(Hd & Hnone & -> & Hwf)].
        + simpl. split; [constructor|]. done.
        + assert (inv (<[c_dest c := new_dir (e_umask e) s (c_dest c)]> s)) as Hi'.
          { apply inv_dest; try done; [intros st' ns k Hst' Hns Hkf; assert (st' = st) as -> by congruence| |].
            - by exfalso; eapply Hnf.
            - right. left. exists c, st, nst. rewrite Ed. done.
            - right. split; [done|]. by left. }
          simpl. split; [by constructor|]. split; [done|]. intros _ _.
          exists s, (new_dir (e_umask e) s (c_dest c)).
          split; [done|]. split; [done|]. split; [done|]. split; [done|]. split; [done|].
          destruct (Hold s Ha) as [(n0 & Hn0 & Ht0)|Hs0]; [congruence|].
          unfold attrs_kept. by rewrite <-Hs0, Hnone. }
    intros []. intros s' (s & n & -> & Ha & Hi & Hl & Hkd & Hx).
    destruct (is_klink (n_kind n)) eqn:Elk.
    - (* a symlink in the way: chmod refuses *)
      enough (triple inv (λ s', s' = <[c_dest c := n]> s)
         (set_permissions (c_dest c) st ;;;
          ret_ (if is_actually_modified c then 1 else 0, [d_path st]))
         (λ r s', after_sets s1 (pre ++ [c]) s' ∧
                  r = (if is_actually_modified c then 1 else 0, [d_path st]))) as H by (by apply H).
      eapply triple_bind.
      + apply (perms_step c st (<[c_dest c := n]> s) n); try done.
        * by rewrite lookup_insert.
        * intros ns content Hns Hkf. by exfalso; eapply Hnf.
        * intros _. right. by apply Hl.
      + intros []. intros s' (_ & _ & [H|H]); [|congruence].
        rewrite Hdst, d_is_symlink_of, Ed in H. done.
    - apply (Hlast s n); try done.
      + rewrite Ed. by apply Hkd.
      + rewrite Elk. done.
  Qed.

  Lemma imap_pair_snd (l : list change) : (imap (λ i c, (i, c)) l).*2 = l.
  Proof.
    assert (∀ (h : nat → nat), (imap (λ i c, (h i, c)) l).*2 = l) as H; [|apply (H id)].
    induction l as [|c l IH]; intros h; [done|]. rewrite imap_cons, fmap_cons. simpl. f_equal.
    apply (IH (h ∘ S)).
  Qed.

  Lemma imap_snd_elem (l : list change) (pre post : list (nat * change)) x :
    imap (λ i c, (i, c)) l = pre ++ x :: post → l = pre.*2 ++ x.2 :: post.*2.
  Proof.
    intros E. rewrite <-(imap_pair_snd l), E. by rewrite fmap_app, fmap_cons.
  Qed.

  Lemma sum_by_imap (g : change → nat) (l : list change) :
    sum_by (λ ic : nat * change, g ic.2) (imap (λ i c, (i, c)) l) = sum_by g l.
  Proof.
    assert (∀ (h : nat → nat), sum_by (λ ic : nat * change, g ic.2) (imap (λ i c, (h i, c)) l) = sum_by g l)
      as H; [|apply (H id)].
    induction l as [|c l IH]; intros h; [done|]. rewrite imap_cons. simpl. f_equal. apply (IH (h ∘ S)).
  Qed.
  Lemma join_imap (g : change → list path) (l : list change) :
    mjoin ((λ ic : nat * change, g ic.2) <$> imap (λ i c, (i, c)) l) = mjoin (g <$> l).
  Proof.
    assert (∀ (h : nat → nat), mjoin ((λ ic : nat * change, g ic.2) <$> imap (λ i c, (h i, c)) l) = mjoin (g <$> l))
      as H; [|apply (H id)].
    induction l as [|c l IH]; intros h; [done|]. rewrite imap_cons. simpl. f_equal. apply (IH (h ∘ S)).
  Qed.

  Lemma sets_pass s1 l : l ≡ₚ cs → inv s1 → (∀ q, s1 !! q = f0 !! q ∨ s1 !! q = None) →
    triple inv (λ s, s = s1) (accum (imap (λ i c, (i, c)) l) (accept_set e 2 false))
      (λ r s, after_sets s1 l s ∧ r = (sum_by count_set l, mjoin (clean_set <$> l))).
  Proof.
    intros HP Hi Hs1. eapply triple_weaken.
    - apply (triple_accum inv (λ pre, after_sets s1 pre.*2) _ (λ ic, count_set ic.2) (λ ic, clean_set ic.2));
        [by intros pre s [Hs _]|].
      intros pre [i c] post E. apply imap_snd_elem in E. rewrite fmap_app. simpl.
      apply set_step; [| |done].
      + rewrite <-HP, E. set_solver.
      + intros c' Hc'. rewrite <-HP, E. set_solver.
    - intros s ->. split; [done|]. split; [|done]. intros c Hc. simpl in Hc. set_solver.
    - intros r s [Hs ->]. rewrite sum_by_imap, join_imap. split; [|done].
      by rewrite imap_pair_snd in Hs.
  Qed.

  (** ** Phase 4 *)
  Definition cleaning (f1 : fs) (ps : list path) (s : fs) : Prop :=
    wf_tree s ∧ ∀ q, s !! q = f1 !! q ∨ (s !! q = None ∧ ∃ p, p ∈ ps ∧ under p q = true).
  Definition cleaned (f1 : fs) (ps : list path) (pre : list path) (s : fs) : Prop :=
    cleaning f1 ps s ∧ ∀ p, p ∈ pre → s !! p = None.
End pass.

Lemma cleaning_nolink f1 ps s q : cleaning f1 ps s → nolink f1 q → nolink s q.
Proof.
  intros [_ H] Hnl a c r E. destruct (Hnl a c r E) as [Hc Hl]. split; [done|].
  intros n Hn. destruct (H a) as [Ha|[Ha _]]; [|congruence]. apply Hl. congruence.
Qed.

Lemma clean_step e f1 ps p pre : env_ok e → p ∈ ps → is_Some (f1 !! p) → wf_tree f1 →
  triple (cleaning f1 ps) (cleaned f1 ps pre) (clean_one e p) (λ _ s, cleaned f1 ps (pre ++ [p]) s).
Proof.
  intros He Hp [n0 Hn0] Hwf1.
  assert (nolink f1 p) as Hnl1 by (eapply dirpath_nolink, wf_dirpath; eauto).
  assert (∀ s t, cleaned f1 ps pre s → wf_tree t → 
    (∀ q, t !! q = s !! q ∨ (t !! q = None ∧ under p q = true)) → t !! p = None →
    cleaned f1 ps (pre ++ [p]) t) as Hfin.
  { intros s t [[Hw Hs] Hpre] Hwt Ht Hg. split.
    - split; [done|]. intros q. destruct (Ht q) as [-> |[-> Hu]]; [apply Hs|]. right. split; [done|]. by exists p.
    - intros q Hq. apply elem_of_app in Hq as [Hq|Hq].
      + destruct (Ht q) as [-> |[-> _]]; [by apply Hpre|done].
      + by apply elem_of_list_singleton in Hq as ->. }
  unfold clean_one.
  eapply triple_bind with (Q := λ d s, cleaned f1 ps pre s ∧ d = negb (is_symlink s p) && is_dir s p).
  { apply triple_get; [by intros s [? _]|]. intros s d Hs [= <-]. done. }
  intros d. destruct d.
  - intros s [Hs Hd]. symmetry in Hd. apply andb_true_iff in Hd as [Hsl _].
    pose proof (proj1 Hs) as Hcl.
    destruct (rmdir_rec_frame (e_ord e) p s He (proj1 Hcl) (cleaning_nolink _ _ _ _ Hcl Hnl1))
      as (H1 & H2 & H3).
    { intros n Hn. unfold is_symlink in Hsl. rewrite (lstat_dom s p n) in Hsl by (done || apply Hcl).
      by apply negb_true_iff. }
    assert (∀ t, shrinks p s t → cleaning f1 ps t) as Hsh.
    { intros t [Hwt Ht]. split; [done|]. intros q. destruct (Ht q) as [-> |[-> Hu]].
      - apply Hcl.
      - right. split; [done|]. by exists p. }
    split; [eapply Forall_impl; [exact H1|done]|]. split; [by apply Hsh|].
    intros [] Hok. eapply Hfin; [done|apply H2|apply H2|]. apply H3; [done|apply under_refl].
  - intros s [Hs _]. pose proof (proj1 Hs) as Hcl.
    destruct (unlink_cases s p (proj1 Hcl) (cleaning_nolink _ _ _ _ Hcl Hnl1))
      as [[er ->]|(m & Hd & Hm & Hk & Hne & -> & Hwf)].
    + simpl. split; [constructor|]. done.
    + assert (cleaned f1 ps (pre ++ [p]) (delete p s)) as Hc.
      { eapply Hfin; [done|done| |apply lookup_delete]. intros q. destruct (decide (p = q)) as [<-|Hq].
        - right. split; [apply lookup_delete|apply under_refl].
        - left. by apply lookup_delete_ne. }
      simpl. split; [constructor; [apply Hc|constructor]|]. split; [apply Hc|]. done.
Qed.

Lemma triple_for_pre {A : Type} (I : fs → Prop) (P : list A → fs → Prop) (g : A → M unit) (l : list A) :
  (∀ pre s, P pre s → I s) →
  (∀ pre x post, l = pre ++ x :: post → triple I (P pre) (g x) (λ _ s, P (pre ++ [x]) s)) →
  triple I (P []) (for_ l g) (λ _ s, P l s).
Proof.
  intros HI Hstep.
  enough (∀ post pre, l = pre ++ post → triple I (P pre) (for_ post g) (λ _ s, P l s)) as H
    by (by apply (H l [])).
  induction post as [|x post IH]; intros pre ->.
  - simpl. rewrite app_nil_r. apply triple_ret; [apply HI|]. done.
  - cbn [for_]. eapply triple_bind; [by eapply Hstep|]. intros [].
    apply (IH (pre ++ [x])). by rewrite <-app_assoc.
Qed.

Lemma clean_pass e f1 ps : env_ok e → wf_tree f1 → (∀ p, p ∈ ps → is_Some (f1 !! p)) →
  triple (cleaning f1 ps) (λ s, s = f1) (clean_up e ps) (λ _ s, cleaned f1 ps ps s).
Proof.
  intros He Hwf Hps. unfold clean_up.
  assert (∀ p, p ∈ dedup (sort_by desc ps) ↔ p ∈ ps) as Hin.
  { intros p. by rewrite elem_of_dedup, elem_of_sort_by. }
  eapply triple_weaken.
  - apply (triple_for_pre (cleaning f1 ps) (cleaned f1 ps)); [by intros pre s [? _]|].
    intros pre p post E. assert (p ∈ ps) as Hp by (rewrite <-Hin, E; set_solver).
    apply clean_step; auto.
  - intros s ->. split; [|intros p Hp; set_solver]. split; [done|]. auto.
  - intros [] s [Hs Hg]. split; [done|]. intros p Hp. apply Hg. by rewrite Hin.
Qed.

(** ** Lists without renames are not altered by the rename phases *)
Lemma assign_tmp_id e ph (l : list change) : (∀ c, c ∈ l → c_op c ≠ ORename) →
  imap (assign_tmp e ph) l = l.
Proof.
  assert (∀ (h : nat → nat), (∀ c, c ∈ l → c_op c ≠ ORename) → imap (λ i, assign_tmp e ph (h i)) l = l)
    as H; [|apply (H id)].
  induction l as [|c l IH]; intros h Hl; [done|]. rewrite imap_cons. f_equal.
  - unfold assign_tmp. specialize (Hl c ltac:(left)). by destruct (c_op c).
  - apply (IH (h ∘ S)). intros c' Hc'. apply Hl. by right.
Qed.

Lemma premove_skip pretend (l : list change) f : (∀ c, c ∈ l → c_op c ≠ ORename) →
  for_ l (accept_premove pretend) f = Out [] f (Ok tt).
Proof.
  induction l as [|c l IH]; intros Hl; [done|]. cbn [for_].
  assert (accept_premove pretend c f = Out [] f (Ok tt)) as E.
  { unfold accept_premove. specialize (Hl c ltac:(left)). by destruct (c_op c). }
  rewrite (bind_ok _ _ _ tt) by (by rewrite E). rewrite E. cbn [o_trace o_fs].
  rewrite IH; [done|]. intros c' Hc'. apply Hl. by right.
Qed.

(** ** The dry run modifies nothing *)
Definition pure {A : Type} (m : M A) : Prop := ∀ f, o_trace (m f) = [] ∧ o_fs (m f) = f.
Lemma pure_ret {A : Type} (a : A) : pure (ret_ a). Proof. done. Qed.
Lemma pure_throw {A : Type} (e : err) : pure (throw e : M A). Proof. done. Qed.
Lemma pure_get {A : Type} (r : fs → res A) : pure (get_ r). Proof. done. Qed.
Lemma pure_bind {A B : Type} (m : M A) (k : A → M B) : pure m → (∀ a, pure (k a)) → pure (bind_ m k).
Proof.
  intros Hm Hk f. destruct (Hm f) as [H1 H2]. unfold bind_. rewrite H1, H2.
  destruct (o_res (m f)) as [a|er]; [|done]. destruct (Hk a f) as [-> ->]. done.
Qed.
Lemma pure_for {A : Type} (l : list A) (g : A → M unit) : (∀ x, pure (g x)) → pure (for_ l g).
Proof. intros H. induction l; [apply pure_ret|]. by apply pure_bind. Qed.
Lemma pure_accum {A : Type} (l : list A) (g : A → M (nat * list path)) : (∀ x, pure (g x)) → pure (accum l g).
Proof.
  intros H. induction l; [apply pure_ret|]. apply pure_bind; [done|]. intros r.
  apply pure_bind; [done|]. intros r'. apply pure_ret.
Qed.

Lemma pure_accept_remove c : pure (accept_remove true c).
Proof.
  unfold accept_remove. destruct (c_op c); try apply pure_ret.
  destruct (c_source c) as [d|]; [|apply pure_throw]. apply pure_bind.
  - destruct (d_is_file d || d_is_symlink d); [apply pure_ret|].
    destruct (d_is_dir d); [apply pure_ret|apply pure_throw].
  - intros []. apply pure_ret.
Qed.
Lemma pure_accept_premove c : pure (accept_premove true c).
Proof.
  unfold accept_premove. destruct (c_op c); try apply pure_ret.
  destruct (c_source c); [|apply pure_ret]. destruct (c_tmp c); [|apply pure_ret].
  apply pure_bind; [apply pure_get|]. intros m1.
  apply pure_bind; [apply pure_get|]. intros m2.
  apply pure_bind; [apply pure_get|]. intros m3.
  destruct (decide _); [apply pure_ret|apply pure_throw].
Qed.
Lemma pure_accept_set e ph ic : pure (accept_set e ph true ic).
Proof.
  destruct ic as [i c]. unfold accept_set. destruct (c_op c).
  - destruct (c_staged c) as [st|]; [|apply pure_throw].
    destruct (d_is_file st); [apply pure_ret|]. destruct (d_is_symlink st); [apply pure_ret|].
    destruct (d_is_dir st); [apply pure_ret|apply pure_throw].
  - apply pure_ret.
  - apply pure_ret.
  - apply pure_throw.
Qed.
Lemma pure_pretend e ph cs : pure (accept_pass e ph true cs).
Proof.
  unfold accept_pass. apply pure_bind; [apply pure_accum, pure_accept_remove|]. intros r1.
  apply pure_bind; [apply pure_for, pure_accept_premove|]. intros [].
  apply pure_bind; [apply pure_accum, pure_accept_set|]. intros r3.
  apply pure_bind; [apply pure_ret|]. intros []. apply pure_ret.
Qed.

(** The dry run of a rename-free list only reorders it. *)
Lemma pretend_result e ph cs f r : (∀ c, c ∈ cs → c_op c ≠ ORename) →
  o_res (accept_pass e ph true cs f) = Ok r → r.2 ≡ₚ cs.
Proof.
  intros Hnr. unfold accept_pass.
  set (cs1 := sort_by by_reverse_source cs).
  assert (cs1 ≡ₚ cs) as HP1 by apply sort_by_perm.
  assert (∀ c, c ∈ sort_by by_reverse_source cs1 → c_op c ≠ ORename) as Hnr'.
  { intros c Hc. apply Hnr. rewrite <-HP1. by rewrite elem_of_sort_by in Hc. }
  rewrite assign_tmp_id by done.
  set (cs2 := sort_by by_reverse_source cs1) in *.
  assert (cs2 ≡ₚ cs) as HP2 by (unfold cs2; by rewrite sort_by_perm).
  unfold bind_ at 1. destruct (o_res (accum cs1 (accept_remove true) f)) as [r1|]; [|done].
  cbn [o_res]. rewrite (bind_ok _ _ _ tt) by (by rewrite premove_skip). cbn [o_res].
  rewrite premove_skip by done. cbn [o_fs].
  unfold bind_ at 1. destruct (o_res (accum _ _ _)) as [r3|]; [|done]. cbn [o_res].
  unfold bind_, ret_. cbn. intros [= <-]. cbn. by rewrite sort_by_perm.
Qed.
