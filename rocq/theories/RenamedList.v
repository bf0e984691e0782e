(** * Exactly which changes are listed for a sandbox with renamed directories *)
From Verif Require Export RenamedLost RenamePlan.

Lemma is_opaque_format (f : fs) (p : path) (n : node) : wf_tree f → f !! p = Some n → utf8_path p → entry_format n →
  is_opaque f (details_of p n) = opaque n.
Proof.
  intros Hwf Hn Hu He. unfold is_opaque, opaque. cbn [d_path details_of].
  rewrite cstring_utf8, (lgetxattr_dom f p n) by done. unfold XOPAQUE.
  destruct (n_xattr n !! "trusted.overlay.opaque") as [v|] eqn:E.
  - destruct (ef_opaque n He v E) as [-> ->]. done.
  - rewrite bool_decide_eq_false_2 by done. by rewrite andb_false_r.
Qed.
Lemma is_removed_format (f : fs) (p : path) (n : node) : wf_tree f → f !! p = Some n → utf8_path p → entry_format n →
  is_removed f (details_of p n) = whiteout n.
Proof.
  intros Hwf Hn Hu He. unfold is_removed, whiteout. rewrite d_is_chr_of.
  cbn [d_path details_of d_rdev]. rewrite cstring_utf8, (lgetxattr_dom f p n) by done. unfold XWHITEOUT.
  assert (∀ k, n_kind n = k → is_kfile k = false →
     n_xattr n !! "trusted.overlay.whiteout" = None) as Hno.
  { intros k Hk Hf. destruct (n_xattr n !! "trusted.overlay.whiteout") as [v|] eqn:E; [|done].
    destruct (ef_whiteout n He v E) as [H _]. rewrite Hk in H. congruence. }
  destruct (n_kind n) as [content| |t|r|r| |] eqn:Ek.
  - destruct (n_xattr n !! "trusted.overlay.whiteout") as [v|] eqn:E.
    + destruct (ef_whiteout n He v E) as [_ Hl]. rewrite bool_decide_eq_true_2 by (by eexists).
      destruct (N.leb_spec (N.of_nat (String.length v)) 1); [done|lia].
    + by rewrite bool_decide_eq_false_2 by (by intros [? ?]).
  - by rewrite (Hno KDir).
  - by rewrite (Hno (KLink t)).
  - unfold st_rdev. rewrite Ek. destruct (N.eqb_spec r 0) as [-> |Hr].
    + done.
    + destruct (ef_chr n He r Ek) as [?|Hl]; [done|].
      apply andb_false_iff. rewrite !N.eqb_neq.
      destruct (decide (N.land r 255 = 0%N)) as [E1|?]; [|by right]. left. intros E2.
      apply Hl, land_split. done.
  - by rewrite (Hno (KBlk r)).
  - by rewrite (Hno KFifo).
  - by rewrite (Hno KSock).
Qed.

Lemma exists_nolink (f : fs) (p : path) : wf_tree f → nolink f p → exists_ f p = true → is_Some (f !! p).
Proof.
  intros Hwf Hnl He. destruct (f !! p) as [k|] eqn:Ek; [by eexists|]. exfalso. unfold exists_, stat in He.
  destruct (lookup_f_cases f p Hwf Hnl ltac:(intros k Hk; congruence)) as [[er Hl]|[Hl _]]; rewrite Hl in He; simpl in He; [done|].
  by rewrite Ek in He.
Qed.
Lemma nolink_prefix (f : fs) (p q : path) : nolink f (p ++ q) → nolink f p.
Proof. intros H a c r ->. apply (H a c (r ++ q)). by rewrite <-app_assoc. Qed.

Section sandbox.
  Context (f : fs) (ub m : path) (dev : N) (Hok : renamed_ok f ub m dev).
  Let Hst : storage_ok f ub [m] := ro_storage _ _ _ _ Hok.
  Let Hwf : wf_tree f := so_wf _ _ _ Hst.
  #[local] Notation U := (upper_dir ub m).
  #[local] Notation src := (kernel_source f ub m).
  #[local] Notation away := (renamed_away f ub m).

  Lemma mount_dir : is_dir_at f m.
  Proof. by destruct (so_mount _ _ _ Hst m ltac:(left)) as [H _]. Qed.

  Lemma mount_point (p : path) : under m p = true → under ub p = false → nolink f p → find_mount_point f p = Ok m.
  Proof.
    intros Hm Hub Hnl. destruct (C26_find_mount_point f p Hwf) as (mp & q & r & d & -> & -> & Hex & Hmax & Hmp & Hd & Hbetween & Htop).
    destruct (exists_nolink f q Hwf (nolink_prefix _ _ _ Hnl) Hex) as [k Hk].
    destruct mount_dir as (dm & Hdm & Hdk).
    assert (under m q = true) as Hmq.
    { destruct (under_comparable _ _ _ Hm (under_app q r)) as [H|H]; [done|]. apply under_spec in H as [t Ht].
      destruct t as [|x t]; [rewrite app_nil_r in Ht; subst; apply under_refl|].
      apply under_spec in Hm as [r' Hr']. rewrite Ht, <-app_assoc in Hr'. apply app_inv_head in Hr'.
      specialize (Hmax (x :: t) r' ltac:(done) Hr'). rewrite <-Ht in Hmax. unfold exists_ in Hmax.
      rewrite (stat_dom f m dm) in Hmax; [done|done|done|by rewrite Hdk]. }
    assert (∀ a b, q = a ++ b → ∃ ka, f !! a = Some ka ∧ dev_at f a = Some (n_dev ka) ∧ (under m a = true → n_dev ka = dev)) as Hpre.
    { intros a b E. rewrite E in Hk. destruct (wf_is_Some_prefix f _ _ _ Hwf Hk) as [ka Hka]. exists ka. split; [done|].
      split; [unfold dev_at; by rewrite (lstat_dom f a ka)|]. intros Hma. apply (ro_device _ _ _ _ Hok a ka); [done| |done].
      destruct (under ub a) eqn:Eu; [|done]. rewrite <-Hub. symmetry. apply (under_trans _ a); [done|].
      rewrite E, <-app_assoc. apply under_app. }
    assert (d = dev) as ->.
    { destruct (Hpre q [] ltac:(by rewrite app_nil_r)) as (ka & Hka & Hda & H). rewrite Hd in Hda. injection Hda as ->. by apply H. }
    destruct (decide (mp = m)) as [-> |Hne]; [done|]. exfalso.
    destruct (under_comparable _ _ _ Hmp Hmq) as [H|H]; apply under_spec in H as [t Ht].
    - destruct t as [|y t _] using rev_ind; [by rewrite app_nil_r in Ht|].
      destruct (ro_mounted _ _ _ _ Hok) as [E|Hpd]; [rewrite E in Ht; by destruct mp, t|].
      unfold parent_dev in Hpd. rewrite Ht, app_assoc, removelast_snoc in Hpd.
      assert (under (mp ++ t) q = true) as Hu.
      { apply (under_trans _ m); [|done]. rewrite Ht. rewrite app_assoc. apply under_app. }
      apply under_spec in Hu as [b Hb]. destruct (Hpre (mp ++ t) b Hb) as (ka & Hka & Hda & _). rewrite Hka in Hpd.
      rewrite Hbetween in Hda; [injection Hda as ->; done|apply under_app|]. rewrite Hb. apply under_app.
    - destruct t as [|y t _] using rev_ind; [by rewrite app_nil_r in Ht|]. destruct Htop as [E|Htop]; [rewrite E in Ht; by destruct m, t|].
      rewrite Ht, app_assoc, removelast_snoc in Htop.
      assert (under (m ++ t) q = true) as Hu.
      { apply (under_trans _ mp); [|done]. rewrite Ht, app_assoc. apply under_app. }
      apply under_spec in Hu as [b Hb]. destruct (Hpre (m ++ t) b Hb) as (ka & Hka & Hda & Hdv). rewrite Hda in Htop.
      apply Htop. f_equal. apply Hdv, under_app.
  Qed.

  Lemma dest_nolink (s : path) (n : node) : renamed_at f ub m s n → nolink f (m ++ s).
  Proof.
    intros Hr a c r E. split.
    - assert (Forall comp_ok (m ++ s)) as Hc.
      { apply Forall_app. split; [destruct mount_dir as (d & Hd & _); by eapply wf_comps|]. destruct Hr as [[_ Hn] _].
        apply (wf_comps f _ _ Hwf) in Hn. by apply Forall_app in Hn as [_ ?]. }
      rewrite E in Hc. apply Forall_app in Hc as [_ Hc]. by apply Forall_cons in Hc as [? _].
    - intros k Hk. by apply (ro_dest_link _ _ _ _ Hok s n Hr a c r k).
  Qed.

  Lemma simple (s : path) : redirects_simple f ub m s.
  Proof.
    intros s1 s2 n r -> Hs1 Hr. destruct (ro_redirect _ _ _ _ Hok s1 n r Hs1 Hr) as (_ & Hl & _ & Hrel).
    split; [done|]. split.
    - intros _. apply mount_point; [apply under_app| |].
      + destruct (ro_elsewhere _ _ _ _ Hok) as [_ H]. by destruct (H s1 n Hs1) as [? _].
      + apply (dest_nolink s1 n). split; [done|by eexists].
    - intros Ha a b n0 E Hb Hn0. by destruct (Hrel Ha a b n0 E Hb Hn0) as [? _].
  Qed.

  Lemma source_nolink (s : path) (n : node) : staged_at f ub m s n → nolink f (src s).
  Proof.
    revert n. induction s as [|c s IH] using rev_ind; intros n Hs; [by destruct Hs|].
    destruct (renamed_dec f ub m (s ++ [c])) as [[n' Hr]|Hno].
    - destruct (ro_source _ _ _ _ Hok _ n' Hr) as (k & Hk & _). apply dirpath_nolink. by eapply wf_dirpath.
    - rewrite (src_plain _ _ _ (ro_storage _ _ _ _ Hok) s c Hno).
      assert (comp_ok c) as Hc.
      { destruct Hs as [_ Hn]. apply (wf_comps f _ _ Hwf) in Hn. apply Forall_app in Hn as [_ Hn].
        apply Forall_app in Hn as [_ Hn]. by apply Forall_cons in Hn as [? _]. }
      destruct s as [|x s].
      + rewrite src_nil. apply nolink_snoc; [|by destruct mount_dir as (d & Hd & Hk); intros n0 Hn0; rewrite Hd in Hn0; injection Hn0 as <-; rewrite Hk|done].
        destruct mount_dir as (d & Hd & _). apply dirpath_nolink. by eapply wf_dirpath.
      + destruct (staged_parent _ _ _ (ro_storage _ _ _ _ Hok) _ _ _ _ Hs) as (d & Hd & Hdk & Hds). specialize (Hds ltac:(done)).
        apply nolink_snoc; [by apply (IH d)| |done]. intros k Hk.
        destruct (is_klink (n_kind k)) eqn:El; [|done]. destruct (n_kind k) as [| |t| | | |] eqn:Ek; try done.
        by destruct (ro_dir_link _ _ _ _ Hok (x :: s) d k t Hds Hdk Hk).
  Qed.

  (** ** The entries the program collects *)
  Definition rentry (s : path) (n : node) : upper_entry :=
    UE (m ++ s) (U ++ s) (details_of (U ++ s) n) (if_exists f (src s)) (source_details f (src s)).

  Lemma mount_decodes : decode_base (b32_encode (path_str m)) = Some m.
  Proof.
    unfold decode_base. rewrite b32_roundtrip. destruct (so_mount _ _ _ Hst m ltac:(left)) as [(d & Hd & _) ->].
    rewrite comps_path_str; [done|]. by eapply wf_comps.
  Qed.
  Lemma rentry_of_staged (e : env) (s : path) (n : node) (c : cache) : staged_at f ub m s n →
    upper_entry_of e f ub true (U ++ s) c = (Ok (Some (rentry s n)), c).
  Proof.
    intros Hs. pose proof Hs as [Hne Hn].
    unfold upper_entry_of. unfold upper_dir at 1. rewrite <-app_assoc, path_strip_app. cbn [app].
    rewrite mount_decodes. destruct s as [|x s]; [done|]. f_equal.
    change (ub ++ [b32_encode (path_str m)]) with U.
    rewrite (C25_source_like_kernel_partial f ub [m] m (x :: s) n Hst ltac:(left) Hs (simple _)). cbn [rbind].
    fold (if_exists f (src (x :: s))).
    rewrite (from_path_dom f _ n) by done.
    unfold rentry, if_exists, source_details.
    destruct (exists_ f (src (x :: s))) eqn:Ee; cbn [rbind]; [|done].
    destruct (exists_nolink f _ Hwf (source_nolink _ _ Hs) Ee) as [k Hk].
    rewrite (from_path_dom f _ k) by done. cbn [rbind]. by rewrite Hk.
  Qed.
  Lemma walked (p : path) : p ∈ walkdir f ub → p = ub ∨ p = U ∨ ∃ s n, staged_at f ub m s n ∧ p = U ++ s.
  Proof.
    intros Hp. apply elem_of_walkdir in Hp as [Hu [n Hn]]; [|done|apply (so_ub _ _ _ Hst)].
    apply under_spec in Hu as [t ->]. destruct t as [|c s].
    { left. by rewrite app_nil_r. }
    right. change (c :: s) with ([c] ++ s) in Hn. rewrite app_assoc in Hn.
    destruct (wf_is_Some_prefix f _ _ _ Hwf Hn) as [d Hd].
    destruct (so_child _ _ _ Hst c d Hd) as (m' & Hm & ->). apply elem_of_list_singleton in Hm as ->.
    destruct s as [|x s]; [by left|]. right. exists (x :: s), n. split; [by split|].
    unfold upper_dir. by rewrite <-app_assoc.
  Qed.

  Definition staged_list (l : list (path * node)) : Prop :=
    (∀ x, x ∈ l ↔ staged_at f ub m x.1 x.2) ∧ NoDup l.*1.
  Lemma entries_loop (e : env) (ps : list path) (c : cache) : (∀ p, p ∈ ps → p ∈ walkdir f ub) → NoDup ps →
    ∃ l, upper_entries_loop e f ub true ps c = Ok ((λ x, rentry x.1 x.2) <$> l) ∧ NoDup l.*1 ∧
      ∀ x, x ∈ l ↔ staged_at f ub m x.1 x.2 ∧ U ++ x.1 ∈ ps.
  Proof.
    revert c. induction ps as [|p ps IH]; intros c Hps Hnd; cbn [upper_entries_loop].
    { exists []. split; [done|]. split; [constructor|]. intros x. split; [intros H; by apply elem_of_nil in H|].
      intros [_ H]. by apply elem_of_nil in H. }
    apply NoDup_cons in Hnd as [Hp Hnd].
    destruct (walked p ltac:(apply Hps; left)) as [-> |[-> |(s & n & Hs & ->)]].
    - assert (path_strip ub ub = Some []) as E0 by (rewrite <-(app_nil_r ub) at 2; apply path_strip_app).
      unfold upper_entry_of. rewrite E0. cbn [rbind].
      destruct (IH c ltac:(intros q Hq; apply Hps; by right) Hnd) as (l & -> & Hl1 & Hl2). cbn [rbind].
      exists l. split; [done|]. split; [done|]. intros x. rewrite Hl2. split; [intros [? ?]; split; [done|by right]|].
      intros [H1 H2]. split; [done|]. apply elem_of_cons in H2 as [E|?]; [|done]. exfalso.
      apply (f_equal length) in E. unfold upper_dir in E. rewrite !app_length in E. simpl in E. lia.
    - unfold upper_entry_of. unfold upper_dir at 1. rewrite path_strip_app, mount_decodes. cbn [rbind].
      destruct (IH c ltac:(intros q Hq; apply Hps; by right) Hnd) as (l & -> & Hl1 & Hl2). cbn [rbind].
      exists l. split; [done|]. split; [done|]. intros x. rewrite Hl2. split; [intros [? ?]; split; [done|by right]|].
      intros [H1 H2]. split; [done|]. apply elem_of_cons in H2 as [E|?]; [|done]. exfalso. destruct H1 as [H1 _].
      revert E. by apply snoc_ne_self.
    - rewrite (rentry_of_staged e s n c Hs). cbn [rbind].
      destruct (IH c ltac:(intros q Hq; apply Hps; by right) Hnd) as (l & -> & Hl1 & Hl2). cbn [rbind].
      exists ((s, n) :: l). split; [done|]. split.
      + rewrite fmap_cons. apply NoDup_cons. split; [|done]. rewrite elem_of_list_fmap. intros ([s' n'] & E & H').
        cbn [fst] in E. subst s'. apply Hl2 in H' as [_ H']. by apply Hp.
      + intros x. rewrite elem_of_cons, Hl2. split.
        * intros [-> |[H1 H2]]; [split; [done|left]|split; [done|by right]].
        * intros [H1 H2]. apply elem_of_cons in H2 as [E|H2]; [|by right]. left. apply app_inv_head in E.
          destruct x as [s' n']. cbn [fst snd] in *. subst s'. destruct Hs as [_ Hs], H1 as [_ H1]. congruence.
  Qed.
  Lemma entries_listed (e : env) : env_ok e → ∃ l, upper_entries e f ub true = Ok ((λ x, rentry x.1 x.2) <$> l) ∧ staged_list l.
  Proof.
    intros He. destruct (entries_loop e (e_ord e (walkdir f ub)) ∅) as (l & Hl & H1 & H2).
    - intros p. by rewrite (He _).
    - rewrite (He _). apply NoDup_walkdir; [done|apply (so_ub _ _ _ Hst)].
    - exists l. split; [exact Hl|]. split; [|done]. intros x. rewrite H2. split; [by intros [? _]|]. intros Hx. split; [done|].
      rewrite (He _). apply elem_of_walkdir; [done|apply (so_ub _ _ _ Hst)|]. split.
      + unfold upper_dir. rewrite <-app_assoc. apply under_app.
      + destruct Hx as [_ Hx]. by eexists.
  Qed.

  Lemma utf8_staged (s : path) (n : node) : f !! (U ++ s) = Some n → utf8_path (U ++ s).
  Proof.
    intros Hn. apply (so_utf8 _ _ _ Hst _ n Hn). unfold upper_dir. rewrite <-app_assoc. apply under_app.
  Qed.
  Lemma is_renamed_staged (s : path) (n : node) : staged_at f ub m s n → is_renamed f (details_of (U ++ s) n) = Ok (redirect n).
  Proof.
    intros Hs. destruct (C23_redirect_read_whole_partial f (U ++ s) n Hwf (proj2 Hs) (utf8_staged s n (proj2 Hs))) as (H1 & H2 & _).
    { intros v Hv. by destruct (ro_redirect _ _ _ _ Hok s n v Hs Hv) as (_ & [_ ?] & _). }
    destruct (redirect n) as [r|] eqn:Er; [|by apply H2].
    destruct (ro_redirect _ _ _ _ Hok s n r Hs Er) as (_ & [Hl _] & _). by apply H1.
  Qed.
  Lemma renamed_exists (s : path) (n : node) : renamed_at f ub m s n → exists_ f (src s) = true ∧ is_dir f (src s) = true.
  Proof.
    intros Hr. destruct (ro_source _ _ _ _ Hok s n Hr) as (k & Hk & Hd & _).
    unfold exists_, is_dir. rewrite (stat_dom f _ k); [|done|done|by rewrite Hd]. by rewrite Hd.
  Qed.
  Lemma renamed_paths_spec (l : list (path * node)) : (∀ x, x ∈ l → staged_at f ub m x.1 x.2) →
    ∃ rp, renamed_paths f ((λ x, rentry x.1 x.2) <$> l) = Ok rp ∧ ∀ p, p ∈ rp ↔ ∃ s n, (s, n) ∈ l ∧ renamed_at f ub m s n ∧ src s = p.
  Proof.
    induction l as [|[s n] l IH]; intros Hl; cbn [fmap list_fmap renamed_paths].
    { exists []. split; [done|]. intros p. split; [intros H; by apply elem_of_nil in H|]. intros (s & n & H & _). by apply elem_of_nil in H. }
    pose proof (Hl (s, n) ltac:(left)) as Hs. cbn [fst snd] in Hs.
    destruct IH as (rp & Hrp & Hin); [intros x Hx; apply Hl; by right|].
    cbn [ue_details ue_source rentry fst snd]. rewrite (is_renamed_staged s n Hs). cbn [rbind].
    replace (renamed_paths f (list_fmap _ _ _ l)) with (renamed_paths f ((λ x, rentry x.1 x.2) <$> l)) by done.
    rewrite Hrp. cbn [rbind].
    destruct (redirect n) as [r|] eqn:Er.
    - assert (renamed_at f ub m s n) as Hr by (split; [done|by exists r]).
      unfold if_exists. rewrite (proj1 (renamed_exists s n Hr)). eexists. split; [done|]. intros p. rewrite elem_of_cons, Hin. split.
      + intros [-> |(s' & n' & H1 & H2)]; [exists s, n; split; [left|done]|exists s', n'; split; [by right|done]].
      + intros (s' & n' & H1 & H2 & H3). apply elem_of_cons in H1 as [[= -> ->]|H1]; [by left|right]. by exists s', n'.
    - exists rp. split; [by destruct (if_exists f (src s))|]. intros p. rewrite Hin. split.
      + intros (s' & n' & H1 & H2). exists s', n'. split; [by right|done].
      + intros (s' & n' & H1 & H2 & H3). apply elem_of_cons in H1 as [[= -> ->]|H1]; [|by exists s', n'].
        destruct H2 as [_ [r Hr]]. congruence.
  Qed.

  (** ** The changes of one entry *)
  Definition lists_removal (s : path) (n : node) (c : change) : Prop :=
    replaces f ub m s n ∧ ¬ away (src s) ∧ ∃ q k, under (src s) q = true ∧ f !! q = Some k ∧
      c = Change q ORemove (Some (details_of q k)) (if decide (q = src s) then Some (details_of (U ++ s) n) else None) None.
  Definition lists_rename (s : path) (n : node) (c : change) : Prop :=
    renamed_at f ub m s n ∧ ∃ k, f !! src s = Some k ∧
      c = Change (m ++ s) ORename (Some (details_of (src s) k)) (Some (details_of (U ++ s) n)) None.
  Definition lists_install (s : path) (n : node) (c : change) : Prop :=
    redirect n = None ∧ whiteout n = false ∧ ∃ ty, c = Change (m ++ s) (OSet ty) (source_details f (src s)) (Some (details_of (U ++ s) n)) None.
  Definition entry_lists (s : path) (n : node) (c : change) : Prop :=
    lists_removal s n c ∨ lists_rename s n c ∨ lists_install s n c.

  Lemma exists_real (p : path) (k : node) : f !! p = Some k → is_klink (n_kind k) = false →
    exists_ f p = true ∧ is_dir f p = is_kdir (n_kind k).
  Proof. intros Hk Hl. unfold exists_, is_dir. by rewrite (stat_dom f p k). Qed.

  Lemma walk_listed (e : env) (p : path) (ud : details) : env_ok e → is_dir_at f p →
    remove_walk e f p ud = Ok (walk_change f p ud <$> e_ord e (walkdir f p)).
  Proof.
    intros He Hd. unfold remove_walk. apply rmap_all. intros q Hq. rewrite (He _) in Hq.
    apply elem_of_walkdir in Hq as [Hu [k Hk]]; [|done|done].
    rewrite (from_path_dom f q k) by done. cbn [rbind]. unfold walk_change. by rewrite Hk.
  Qed.

  Lemma leaf_only (p : path) (k : node) : f !! p = Some k → n_kind k ≠ KDir → ∀ q, under p q = true → is_Some (f !! q) → q = p.
  Proof.
    intros Hk Hnd q Hu [x Hx]. apply under_spec in Hu as [r ->]. destruct r as [|c r]; [by rewrite app_nil_r|].
    assert (below f p = []) as Hb by (eapply wf_nondir_below; [done|exact Hk|done]).
    rewrite below_nil in Hb. by rewrite Hb in Hx.
  Qed.

  Lemma removals_listed (e : env) (rp : list path) (s : path) (n : node) : env_ok e → staged_at f ub m s n →
    (∀ p, p ∈ rp ↔ away p) →
    ∃ rs, remove_changes e f rp (rentry s n) = Ok rs ∧ NoDup (c_dest <$> rs) ∧ ∀ c, c ∈ rs ↔ lists_removal s n c.
  Proof.
    intros He Hs Hrp. pose proof Hs as [Hne Hn]. pose proof (ro_format _ _ _ _ Hok s n Hs) as Heo. pose proof (utf8_staged s n Hn) as Hutf.
    unfold remove_changes, rentry. cbn [ue_details ue_source ue_source_details].
    rewrite is_opaque_format, is_removed_format, d_is_dir_of by done.
    unfold if_exists, source_details.
    assert (∀ (P : Prop), ¬ P → ∃ rs : list change, Ok [] = Ok rs ∧ NoDup (c_dest <$> rs) ∧ ∀ c, c ∈ rs ↔ P) as Hempty.
    { intros P HP. exists []. split; [done|]. split; [constructor|]. intros c. split; [intros Hc; by apply elem_of_nil in Hc|done]. }
    destruct (f !! src s) as [k|] eqn:Ek.
    2: { destruct (exists_ f (src s)) eqn:Ee.
         { destruct (exists_nolink f _ Hwf (source_nolink s n Hs) Ee) as [k Hk]. congruence. }
         exists []. split; [by destruct (_ || _)|]. split; [constructor|]. intros c. split; [intros Hc; by apply elem_of_nil in Hc|].
         intros ((_ & k & Hk & _) & _). congruence. }
    destruct (is_klink (n_kind k)) eqn:El.
    - destruct (n_kind k) as [| |t| | | |] eqn:Ekk; try done.
      assert (is_kdir (n_kind n) = false) as Hnd.
      { destruct (is_kdir (n_kind n)) eqn:E; [|done]. apply is_kdir_true in E.
        by destruct (ro_dir_link _ _ _ _ Hok s n k t Hs E Ek). }
      assert (opaque n = false) as Hno by (unfold opaque; by rewrite Hnd).
      assert (is_dir f (src s) = false) as Hisd.
      { unfold is_dir. destruct (stat f (src s)) as [x|] eqn:Est; [|done].
        destruct (is_kdir (n_kind x)) eqn:Ex; [|done]. apply is_kdir_true in Ex.
        destruct (ro_file_link _ _ _ _ Hok s n k t Hs Ek Ekk). by exists x. }
      assert (¬ away (src s)) as Hna.
      { intros (s' & n' & Hr & E). destruct (ro_source _ _ _ _ Hok _ _ Hr) as (k' & Hk' & Hd & _). rewrite E, Ek in Hk'. congruence. }
      rewrite Hno, Hnd. cbn [orb negb andb].
      destruct (whiteout n) eqn:Ew; cbn [orb].
      + destruct (ro_whiteout_link _ _ _ _ Hok s n k t Hs Ew Ek Ekk) as (x & Hx & Hxk).
        assert (exists_ f (src s) = true) as Hex by (unfold exists_; by rewrite Hx).
        rewrite Hex. cbn [orb]. rewrite decide_False by (by rewrite Hrp).
        rewrite Hisd. eexists. split; [done|]. split; [apply NoDup_singleton|]. intros c. rewrite elem_of_list_singleton. split.
        * intros ->. split; [split; [done|]; exists k; split; [done|]; by left|]. split; [done|].
          exists (src s), k. split; [apply under_refl|]. split; [done|]. by rewrite decide_True.
        * intros (_ & _ & q & k' & Hu & Hk' & ->).
          assert (q = src s) as -> by (apply (leaf_only (src s) k Ek); [congruence|done|by eexists]).
          rewrite decide_True by done. assert (k' = k) as -> by congruence. done.
      + assert (match (if exists_ f (src s) then Some (src s) else None) with
                | Some sp => is_dir f sp | None => false end = false) as ->.
        { by destruct (exists_ f (src s)). }
        exists []. split; [done|]. split; [constructor|]. intros c. split; [intros Hc; by apply elem_of_nil in Hc|].
        intros ((_ & k' & Hk' & Hr) & _). assert (k' = k) as -> by congruence.
        destruct Hr as [?|[?|[_ ?]]]; congruence.
    - destruct (exists_real (src s) k Ek El) as [Hex Hisd].
      rewrite Hex, Hisd.
      destruct (opaque n || whiteout n || negb (is_kdir (n_kind n)) && is_kdir (n_kind k)) eqn:Econd.
      + assert (replaces f ub m s n) as Hroot.
        { split; [done|]. exists k. split; [done|]. rewrite !orb_true_iff, andb_true_iff, negb_true_iff in Econd.
          destruct Econd as [[H|H]|[H1 H2]]; [by right; left|by left|]. right. right.
          split; [done|]. by apply is_kdir_true. }
        destruct (decide (src s ∈ rp)) as [Hin|Hin].
        { exists []. split; [done|]. split; [constructor|]. intros c. split; [intros Hc; by apply elem_of_nil in Hc|].
          intros (_ & H & _). by apply Hrp in Hin. }
        rewrite Hrp in Hin.
        destruct (is_kdir (n_kind k)) eqn:Ekd.
        * apply is_kdir_true in Ekd.
          rewrite walk_listed by (done || by exists k).
          eexists. split; [done|]. split.
          { rewrite <-list_fmap_compose.
            replace (c_dest ∘ walk_change f (src s) (details_of (U ++ s) n) <$> e_ord e (walkdir f (src s))) with (e_ord e (walkdir f (src s)))
              by (symmetry; apply (list_fmap_id (e_ord e (walkdir f (src s))))).
            rewrite (He _). by apply NoDup_walkdir; [|exists k]. }
          intros c. rewrite elem_of_list_fmap. split.
          -- intros (q & -> & Hq). rewrite (He _) in Hq.
             apply elem_of_walkdir in Hq as [Hu [k' Hk']]; [|done|by exists k].
             split; [done|]. split; [done|]. exists q, k'. split; [done|]. split; [done|].
             unfold walk_change. by rewrite Hk'.
          -- intros (_ & _ & q & k' & Hu & Hk' & ->). exists q. split.
             ++ unfold walk_change. by rewrite Hk'.
             ++ rewrite (He _). apply elem_of_walkdir; [done|by exists k|]. split; [done|by eexists].
        * eexists. split; [done|]. split; [apply NoDup_singleton|]. intros c. rewrite elem_of_list_singleton. split.
          -- intros ->. split; [done|]. split; [done|]. exists (src s), k. split; [apply under_refl|]. split; [done|].
             by rewrite decide_True.
          -- intros (_ & _ & q & k' & Hu & Hk' & ->).
             assert (q = src s) as ->.
             { apply (leaf_only (src s) k Ek); [|done|by eexists]. intros E. by rewrite E in Ekd. }
             rewrite decide_True by done. by assert (k' = k) as -> by congruence.
      + exists []. split; [done|]. split; [constructor|]. intros c. split; [intros Hc; by apply elem_of_nil in Hc|].
        intros ((_ & k' & Hk' & Hr) & _). assert (k' = k) as -> by congruence. exfalso.
        rewrite !orb_false_iff, andb_false_iff, negb_false_iff in Econd.
        destruct Econd as [[E1 E2] E3]. destruct Hr as [?|[?|[H1 H2]]]; [congruence|congruence|].
        destruct E3 as [E3|E3]; [congruence|]. by rewrite H2 in E3.
  Qed.

  Lemma renamed_not_whiteout (s : path) (n : node) : renamed_at f ub m s n → whiteout n = false.
  Proof.
    intros [Hs [r Hr]]. destruct (ef_redirect n (ro_format _ _ _ _ Hok s n Hs) r Hr) as [Hk _].
    by apply dir_not_whiteout.
  Qed.

  Lemma sets_listed (s : path) (n : node) : staged_at f ub m s n →
    ∃ ss, set_changes f (rentry s n) (details_of (U ++ s) n) = Ok ss ∧
      ((ss = [] ∧ whiteout n = true) ∨
       (∃ k, ss = [Change (m ++ s) ORename (Some (details_of (src s) k)) (Some (details_of (U ++ s) n)) None] ∧ f !! src s = Some k ∧ renamed_at f ub m s n) ∨
       (∃ ty, ss = [Change (m ++ s) (OSet ty) (source_details f (src s)) (Some (details_of (U ++ s) n)) None] ∧ redirect n = None ∧ whiteout n = false)).
  Proof.
    intros Hs. pose proof Hs as [Hne Hn]. pose proof (ro_format _ _ _ _ Hok s n Hs) as Heo. pose proof (utf8_staged s n Hn) as Hutf.
    unfold set_changes. cbn [ue_details ue_source ue_source_details ue_lower ue_upper rentry].
    rewrite is_removed_format by done. destruct (whiteout n) eqn:Ew.
    { exists []. split; [done|]. by left. }
    rewrite (is_renamed_staged s n Hs). cbn [rbind]. destruct (redirect n) as [r|] eqn:Er.
    - assert (renamed_at f ub m s n) as Hr by (split; [done|by exists r]).
      destruct (ro_source _ _ _ _ Hok s n Hr) as (k & Hk & _). 
      assert (source_details f (src s) = Some (details_of (src s) k)) as -> by (unfold source_details; by rewrite (proj1 (renamed_exists s n Hr)), Hk).
      eexists. split; [done|]. right. left. exists k. split; [done|]. by split.
    - cbn [d_mode details_of]. rewrite mode_type.
      assert (negb (N.eqb (kind_type (n_kind n)) S_IFREG) && negb (N.eqb (kind_type (n_kind n)) S_IFDIR)
            && negb (N.eqb (kind_type (n_kind n)) S_IFLNK) = false) as ->.
      { destruct (ro_supported _ _ _ _ Hok s n Hs) as [H|H]; [congruence|]. by destruct (n_kind n). }
      eexists. split; [done|]. right. right. eexists. done.
  Qed.

  Lemma entry_listed (e : env) (rp : list path) (s : path) (n : node) : env_ok e → staged_at f ub m s n →
    (∀ p, p ∈ rp ↔ away p) →
    ∃ rs ss, entry_changes e f rp (rentry s n) = Ok (rs ++ ss) ∧ NoDup (c_dest <$> rs) ∧ (∀ c, c ∈ rs ↔ lists_removal s n c) ∧
      ((ss = [] ∧ whiteout n = true) ∨
       (∃ k, ss = [Change (m ++ s) ORename (Some (details_of (src s) k)) (Some (details_of (U ++ s) n)) None] ∧ f !! src s = Some k ∧ renamed_at f ub m s n) ∨
       (∃ ty, ss = [Change (m ++ s) (OSet ty) (source_details f (src s)) (Some (details_of (U ++ s) n)) None] ∧ redirect n = None ∧ whiteout n = false)).
  Proof.
    intros He Hs Hrp. unfold entry_changes. cbn [ue_upper rentry]. rewrite (from_path_dom f _ n) by (done || apply Hs). cbn [rbind].
    destruct (removals_listed e rp s n He Hs Hrp) as (rs & -> & HN & Hrs). cbn [rbind].
    destruct (sets_listed s n Hs) as (ss & -> & Hss). cbn [rbind]. by exists rs, ss.
  Qed.
End sandbox.
