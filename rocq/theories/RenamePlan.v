(** * Accepting renames, installations and removals together: the whole of
      /repo/src/actions/accept.rs:118-438 *)
From Verif Require Export SetOk.

(** ** Specification *)
(** The paths that are removed. *)
Definition removed_path (c : change) : option path :=
  match c_op c, c_source c with ORemove, Some s => Some (d_path s) | _, _ => None end.
Definition removals (cs : list change) : list path := omap removed_path cs.
(** The paths where something is installed or arrives. *)
Definition arrival (c : change) : option path := match c_op c with ORemove => None | _ => Some (c_dest c) end.
Definition arrivals (cs : list change) : list path := omap arrival cs.
Definition without (f : fs) (ps : list path) : fs := filter (λ qn : path * node, qn.1 ∉ ps) f.

(** The directory [p] will be there: it is installed, or it is not and the host has it. *)
Definition parent_there (f1 : fs) (mv : list (path * path)) (sel : list change) (p : path) : Prop :=
  (∃ c d, c ∈ sel ∧ is_set c ∧ c_dest c = p ∧ c_staged c = Some d ∧ d_is_dir d = true) ∨
  (∀ c, c ∈ sel → is_set c → c_dest c ≠ p) ∧ ∃ d, n_kind d = KDir ∧ arranged f1 mv mv p (Some d).

Record doable (e : env) (f : fs) (ub : path) (dev : N) (sel : list change) : Prop := {
  (** every entry is a rename, an installation or a removal, of something staged *)
  db_ops : ∀ c, c ∈ sel → is_Some (move_of c) ∨ is_set c ∨ is_Some (removed_path c);
  db_staged : ∀ c d, c ∈ sel → c_staged c = Some d → ∃ r n, r ≠ [] ∧ f !! (ub ++ r) = Some n ∧ d = details_of (ub ++ r) n;
  db_dests : NoDup (arrivals sel);
  (** removals: whole trees of files, links and directories, no mount points *)
  db_removals : NoDup (removals sel);
  db_remove : ∀ c p, c ∈ sel → removed_path c = Some p → p ≠ [] ∧ ∃ k, f !! p = Some k ∧ c_source c = Some (details_of p k) ∧
    supported k = true ∧
    (n_kind k = KDir → parent_dev f p = n_dev k ∧ ∀ x, is_Some (f !! (p ++ [x])) → p ++ [x] ∈ removals sel);
  db_remove_stays : ∀ p, p ∈ removals sel → under p (e_cwd e) = false ∧ under p ub = false ∧ under ub p = false ∧
    ∀ m, m ∈ moves sel → under p m.1 = false;
  (** what is renamed is a directory, not a mount point, and its new name is free *)
  db_sources : NoDup (moves sel).*1;
  db_source : ∀ m, m ∈ moves sel → m.1 ≠ [] ∧ parent_dev f m.1 = dev ∧
    ∃ n, f !! m.1 = Some n ∧ n_kind n = KDir ∧ n_dev n = dev;
  db_free : ∀ m, m ∈ moves sel → ∃ p x, m.2 = p ++ [x] ∧ comp_ok x ∧
    arranged (without f (removals sel)) (moves sel) (filter (λ m', above m'.2 m.2 = true) (moves sel)) m.2 None ∧
    parent_there (without f (removals sel)) (moves sel) sel p ∧
    (∀ d, arranged (without f (removals sel)) (moves sel) (moves sel) p (Some d) → n_dev d = dev);
  (** what is installed has a parent and nothing of another kind in its place *)
  db_set : ∀ c, c ∈ sel → is_set c → ∃ u n p x, c_staged c = Some (details_of u n) ∧ f !! u = Some n ∧ supported n = true ∧
    c_dest c = p ++ [x] ∧ comp_ok x ∧ under ub (c_dest c) = false ∧
    parent_there (without f (removals sel)) (moves sel) sel p ∧
    (∀ t, arranged (without f (removals sel)) (moves sel) (moves sel) (c_dest c) t → ¬ in_the_way n t) ∧
    (∀ m, m ∈ moves sel → above (c_dest c) m.2 = true →
       (∀ d, arranged (without f (removals sel)) (moves sel) (moves sel) (c_dest c) (Some d) → n_dev d = dev) ∧
       (∀ d, arranged (without f (removals sel)) (moves sel) (moves sel) p (Some d) → n_dev d = dev)) ∧
    (** and its temporary name is new *)
    (is_kfile (n_kind n) = true → ∀ i, e_uuid e 3 i ≠ "" ∧ contains "/" (e_uuid e 3 i) = false ∧
       arranged (without f (removals sel)) (moves sel) (moves sel) (with_extension (c_dest c) (e_uuid e 3 i)) None ∧
       with_extension (c_dest c) (e_uuid e 3 i) ∉ arrivals sel ∧
       ∀ ph j m, m ∈ moves sel → under (tmp_name (e_cwd e) m.1 m.2 (e_uuid e ph j)) (with_extension (c_dest c) (e_uuid e 3 i)) = false);
  (** all renames on one mount, with the current directory, which is not itself renamed *)
  db_mount : ∃ mp, (moves sel ≠ [] → find_mount_point f (e_cwd e) = Ok mp) ∧
    ∀ m, m ∈ moves sel → find_mount_point f m.1 = Ok mp ∧ find_mount_point f m.2 = Ok mp;
  db_cwd : ∃ d, f !! e_cwd e = Some d ∧ n_kind d = KDir ∧ n_dev d = dev;
  db_cwd_stays : ∀ m, m ∈ moves sel → under m.1 (e_cwd e) = false ∧ under m.2 (e_cwd e) = false;
  (** the sandbox storage is elsewhere *)
  db_storage : ∀ m, m ∈ moves sel →
    under ub m.1 = false ∧ under m.1 ub = false ∧ under ub m.2 = false ∧ under m.2 ub = false;
  (** the temporary names are new *)
  db_tmp : ∀ ph i m, m ∈ moves sel →
    contains "/" (e_uuid e ph i) = false ∧
    f !! tmp_name (e_cwd e) m.1 m.2 (e_uuid e ph i) = None ∧
    ∀ q, q ∈ arrivals sel → under (tmp_name (e_cwd e) m.1 m.2 (e_uuid e ph i)) q = false;
  db_tmp_distinct : ∀ i j m m', m ∈ moves sel → m' ∈ moves sel → m ≠ m' → i ≠ j →
    tmp_name (e_cwd e) m.1 m.2 (e_uuid e 2 i) ≠ tmp_name (e_cwd e) m'.1 m'.2 (e_uuid e 2 j);
}.

(** ** Facts about removals *)
Lemma without_lookup (f : fs) (ps : list path) (q : path) : without f ps !! q = if decide (q ∈ ps) then None else f !! q.
Proof.
  unfold without. destruct (decide (q ∈ ps)) as [H|H].
  - apply map_filter_lookup_None. right. intros n _ Hn. cbn in Hn. done.
  - destruct (f !! q) as [n|] eqn:E.
    + apply map_filter_lookup_Some. done.
    + apply map_filter_lookup_None. by left.
Qed.
Lemma without_in (f : fs) (ps : list path) (q : path) : q ∈ ps → without f ps !! q = None.
Proof. intros H. rewrite without_lookup. by rewrite decide_True. Qed.
Lemma without_out (f : fs) (ps : list path) (q : path) : q ∉ ps → without f ps !! q = f !! q.
Proof. intros H. rewrite without_lookup. by rewrite decide_False. Qed.
Lemma without_Some (f : fs) (ps : list path) (q : path) (n : node) : without f ps !! q = Some n ↔ q ∉ ps ∧ f !! q = Some n.
Proof. rewrite without_lookup. destruct (decide (q ∈ ps)); naive_solver. Qed.
Lemma without_nil (f : fs) : without f [] = f.
Proof. apply map_eq. intros q. rewrite without_out; [done|]. by apply not_elem_of_nil. Qed.
Lemma without_snoc (f : fs) (ps : list path) (p : path) : without f (ps ++ [p]) = delete p (without f ps).
Proof.
  apply map_eq. intros q. destruct (decide (q = p)) as [-> |Hne].
  - rewrite lookup_delete. apply without_in. set_solver.
  - rewrite lookup_delete_ne by done. rewrite !without_lookup. destruct (decide (q ∈ ps)), (decide (q ∈ ps ++ [p])); set_solver.
Qed.
Lemma without_perm (f : fs) (ps ps' : list path) : ps ≡ₚ ps' → without f ps = without f ps'.
Proof.
  intros HP. apply map_eq. intros q. rewrite !without_lookup. assert (q ∈ ps ↔ q ∈ ps') as H by (by rewrite HP).
  destruct (decide (q ∈ ps)), (decide (q ∈ ps')); tauto.
Qed.

Lemma removals_app (a b : list change) : removals (a ++ b) = removals a ++ removals b.
Proof. unfold removals. apply omap_app. Qed.
Lemma elem_of_removals (cs : list change) (p : path) : p ∈ removals cs ↔ ∃ c, c ∈ cs ∧ removed_path c = Some p.
Proof. unfold removals. apply elem_of_list_omap. Qed.
Lemma removals_perm (a b : list change) : a ≡ₚ b → removals a ≡ₚ removals b.
Proof. unfold removals. intros H. by rewrite H. Qed.
Lemma removals_core (cs : list change) : removals (core <$> cs) = removals cs.
Proof.
  unfold removals. induction cs as [|c cs IH]; [done|]. csimpl. change (removed_path (core c)) with (removed_path c).
  destruct (removed_path c); by rewrite IH.
Qed.

Lemma arrivals_app (a b : list change) : arrivals (a ++ b) = arrivals a ++ arrivals b.
Proof. unfold arrivals. apply omap_app. Qed.
Lemma elem_of_arrivals (cs : list change) (p : path) : p ∈ arrivals cs ↔ ∃ c, c ∈ cs ∧ c_op c ≠ ORemove ∧ c_dest c = p.
Proof.
  unfold arrivals. rewrite elem_of_list_omap. unfold arrival. split.
  - intros (c & Hc & E). exists c. split; [done|]. destruct (c_op c); try done; injection E as <-; done.
  - intros (c & Hc & Ho & E). exists c. split; [done|]. destruct (c_op c); by subst.
Qed.
Lemma arrivals_perm (a b : list change) : a ≡ₚ b → arrivals a ≡ₚ arrivals b.
Proof. unfold arrivals. intros H. by rewrite H. Qed.
Lemma arrivals_core (cs : list change) : arrivals (core <$> cs) = arrivals cs.
Proof.
  unfold arrivals. induction cs as [|c cs IH]; [done|]. csimpl. change (arrival (core c)) with (arrival c).
  destruct (arrival c); by rewrite IH.
Qed.

Section accept.
  Context (e : env) (f : fs) (ub : path) (dev udev : N) (sel : list change).
  Hypothesis Hwf : wf_tree f.
  Hypothesis He : env_ok e.
  Hypothesis Hdb : doable e f ub dev sel.
  Hypothesis Hud : one_device f ub udev.

  Let mv := moves sel.
  Let rp := removals sel.
  Let f1 := without f rp.
  Definition alike (cs : list change) : Prop := core <$> cs ≡ₚ core <$> sel.

  Lemma alike_in (cs : list change) (c : change) : alike cs → c ∈ cs → ∃ c0, c0 ∈ sel ∧ core c = core c0.
  Proof.
    intros HL Hc. unfold alike in HL. assert (core c ∈ core <$> sel) as H by (rewrite <-HL; apply elem_of_list_fmap; by exists c).
    apply elem_of_list_fmap in H as (c0 & E & H). by exists c0.
  Qed.
  Lemma alike_of (cs : list change) (c0 : change) : alike cs → c0 ∈ sel → ∃ c, c ∈ cs ∧ core c = core c0.
  Proof.
    intros HL Hc. unfold alike in HL. assert (core c0 ∈ core <$> cs) as H by (rewrite HL; apply elem_of_list_fmap; by exists c0).
    apply elem_of_list_fmap in H as (c & E & H). by exists c.
  Qed.
  Lemma alike_moves (cs : list change) : alike cs → moves cs ≡ₚ mv.
  Proof. intros HL. unfold mv. rewrite <-(moves_core cs), <-(moves_core sel). by apply moves_perm. Qed.
  Lemma alike_removals (cs : list change) : alike cs → removals cs ≡ₚ rp.
  Proof. intros HL. unfold rp. rewrite <-(removals_core cs), <-(removals_core sel). by apply removals_perm. Qed.
  Lemma alike_sort (cmp : change → change → comparison) (cs : list change) : alike cs → alike (sort_by cmp cs).
  Proof. intros HL. unfold alike. by rewrite sort_by_perm. Qed.
  Lemma alike_imap (ph : nat) (cs : list change) : alike cs → alike (imap (assign_tmp e ph) cs).
  Proof. intros HL. unfold alike. by rewrite core_imap_assign. Qed.
  Lemma mv_nd : NoDup mv.
  Proof. eapply NoDup_fmap_1. apply (db_sources _ _ _ _ _ Hdb). Qed.
  Lemma alike_moves_nd (cs : list change) : alike cs → NoDup (moves cs).
  Proof. intros HL. rewrite (alike_moves cs HL). apply mv_nd. Qed.
  Lemma alike_removals_nd (cs : list change) : alike cs → NoDup (removals cs).
  Proof. intros HL. rewrite (alike_removals cs HL). apply Hdb. Qed.
  Lemma alike_arrivals (cs : list change) : alike cs → arrivals cs ≡ₚ arrivals sel.
  Proof. intros HL. rewrite <-(arrivals_core cs), <-(arrivals_core sel). by apply arrivals_perm. Qed.
  (** No two entries install or rename to the same path. *)
  Lemma alike_apart (cs pre post : list change) (c c' : change) : alike cs → cs = pre ++ c :: post → c' ∈ pre →
    c_op c ≠ ORemove → c_op c' ≠ ORemove → c_dest c ≠ c_dest c'.
  Proof.
    intros HL El Hc' Ho Ho' Ed. assert (NoDup (arrivals cs)) as HND by (rewrite (alike_arrivals cs HL); apply Hdb).
    rewrite El, arrivals_app in HND. apply NoDup_app in HND as (_ & HND & _). apply (HND (c_dest c)).
    - apply elem_of_arrivals. by exists c'.
    - apply elem_of_arrivals. exists c. split; [left|done].
  Qed.

  (** An entry is one of three things. *)
  Definition renames (c : change) (m : path * path) : Prop :=
    m ∈ mv ∧ move_of c = Some m ∧ c_op c = ORename ∧ c_dest c = m.2 ∧ removed_path c = None ∧ ∃ s, c_source c = Some s ∧ d_path s = m.1.
  Definition deletes (c : change) (p : path) (k : node) : Prop :=
    p ∈ rp ∧ removed_path c = Some p ∧ c_op c = ORemove ∧ move_of c = None ∧ f !! p = Some k ∧ c_source c = Some (details_of p k) ∧ supported k = true.
  Definition installs (c : change) (u : path) (n : node) : Prop :=
    is_set c ∧ move_of c = None ∧ removed_path c = None ∧ c_staged c = Some (details_of u n) ∧ f !! u = Some n ∧ supported n = true ∧
    under ub (c_dest c) = false ∧ ∃ c0, c0 ∈ sel ∧ core c = core c0.

  Lemma entry3 (c c0 : change) : c0 ∈ sel → core c = core c0 →
    (∃ m, renames c m) ∨ (∃ p k, deletes c p k) ∨ ∃ u n, installs c u n.
  Proof.
    intros Hc0 E. pose proof E as Ecore. apply core_eq in E as (E1 & E2 & E3 & E4).
    assert (move_of c = move_of c0) as Em by (unfold move_of; by rewrite E1, E2, E3).
    assert (removed_path c = removed_path c0) as Er by (unfold removed_path; by rewrite E2, E3).
    destruct (db_ops _ _ _ _ _ Hdb c0 Hc0) as [[m Hm]|[[t Ht]|[p Hp]]].
    - left. exists m. assert (m ∈ mv) as Hin by (apply elem_of_moves; by exists c0). split; [done|].
      split; [congruence|]. unfold move_of in Hm. unfold removed_path. rewrite E2, E3, E1.
      destruct (c_op c0); try done. destruct (c_source c0) as [s|]; [|done]. injection Hm as <-. cbn. split; [done|]. split; [done|].
      split; [done|]. by exists s.
    - right. right. destruct (db_set _ _ _ _ _ Hdb c0 Hc0 ltac:(by exists t)) as (u & n & p & x & Hst & Hu & Hsup & _ & _ & Hub & _).
      exists u, n. split; [exists t; congruence|]. split; [rewrite Em; unfold move_of; by rewrite Ht|].
      split; [rewrite Er; unfold removed_path; by rewrite Ht|]. split; [congruence|]. split; [done|]. split; [done|].
      split; [by rewrite E1|]. by exists c0.
    - right. left. destruct (db_remove _ _ _ _ _ Hdb c0 p Hc0 Hp) as (_ & k & Hk & Hs & Hsup & _). exists p, k.
      split; [apply elem_of_removals; by exists c0|]. split; [congruence|]. split.
      { rewrite E2. unfold removed_path in Hp. by destruct (c_op c0). }
      split.
      { rewrite Em. unfold removed_path in Hp. unfold move_of. by destruct (c_op c0). }
      split; [done|]. split; [congruence|]. done.
  Qed.
  Lemma entry_alike (cs : list change) (c : change) : alike cs → c ∈ cs →
    (∃ m, renames c m) ∨ (∃ p k, deletes c p k) ∨ ∃ u n, installs c u n.
  Proof. intros HL Hc. destruct (alike_in cs c HL Hc) as (c0 & Hc0 & E). by eapply entry3. Qed.

  (** *** Phase 1 *)
  Lemma removals_snoc (pre : list change) (c : change) :
    removals (pre ++ [c]) = removals pre ++ match removed_path c with Some p => [p] | None => [] end.
  Proof. by rewrite removals_app. Qed.

  Definition clean_remove (c : change) : list path :=
    match c_op c with ORemove => match c_staged c with Some d => [d_path d] | None => [] end | _ => [] end.

  Lemma removed_all (cs : list change) : alike cs → StronglySorted (cmp_le by_reverse_source) cs →
    ∃ r, o_res (accum cs (accept_remove false) f) = Ok r ∧ r.2 = mjoin (clean_remove <$> cs) ∧
      o_fs (accum cs (accept_remove false) f) = f1 ∧ wf_tree f1 ∧
      ∀ st, st ∈ o_trace (accum cs (accept_remove false) f) → ∃ ps, (∀ p, p ∈ ps → p ∈ rp) ∧ st = without f ps.
  Proof.
    intros HL Hsort.
    destruct (accum_shots (λ pre g, wf_tree g ∧ g = without f (removals pre)) (accept_remove false) cs f shot_remove) as (r & Hr & [Hw Hf] & Htr).
    - intros pre c post g El [Hwg Hg]. assert (c ∈ cs) as Hc by (rewrite El; set_solver). rewrite removals_snoc.
      destruct (entry_alike cs c HL Hc) as [(m & _ & _ & Eo & _ & Er & _)|[(p & k & Hp & Er & Eo & Emv & Hk & Es & Hsup)|(u & n & [t Eo] & _ & Er & _)]].
      + rewrite Er, app_nil_r. unfold accept_remove. rewrite Eo. eexists. split; [done|]. done.
      + rewrite Er. unfold accept_remove. rewrite Eo, Es. rewrite d_is_file_of, d_is_symlink_of, d_is_dir_of. cbn [d_path details_of].
        pose proof (alike_removals_nd cs HL) as HND. rewrite El, removals_app in HND. apply NoDup_app in HND as (_ & HND & _).
        assert (p ∉ removals pre) as Hpp.
        { intros Hin. apply (HND p Hin). apply elem_of_removals. exists c. split; [left|done]. }
        assert (g !! p = Some k) as Hgk by (by rewrite Hg, without_out).
        destruct (alike_in cs c HL Hc) as (c0 & Hc0 & Ec0).
        assert (removed_path c0 = Some p) as Er0.
        { apply core_eq in Ec0 as (_ & E2 & E3 & _). rewrite <-Er. unfold removed_path. by rewrite E2, E3. }
        destruct (db_remove _ _ _ _ _ Hdb c0 p Hc0 Er0) as (Hp0 & k' & Hk' & _ & _ & Hdir). assert (k' = k) as -> by congruence.
        assert (∀ p', p' ∈ removals pre → above p' p = false) as Hlow.
        { intros p' Hp'. destruct (above p' p) eqn:Ha; [|done]. exfalso. apply above_spec in Ha as [Ha Hne].
          apply under_spec in Ha as [[|y r'] E]; [by rewrite app_nil_r in E|].
          apply elem_of_removals in Hp' as (c' & Hc' & Er').
          pose proof (sorted_pre _ _ _ _ _ _ Hsort El Hc') as Hle. unfold by_reverse_source in Hle.
          unfold removed_path in Er'. destruct (c_op c'); try done. destruct (c_source c') as [s'|]; [|done]. injection Er' as <-.
          rewrite Es in Hle. cbn [d_path details_of] in Hle. rewrite E in Hle. by rewrite path_cmp_above in Hle. }
        assert (n_kind k = KDir → below g p = []) as Hbelow.
        { intros Hkd. apply below_nil_wf; [done|]. intros x. destruct (g !! (p ++ [x])) as [k2|] eqn:E2; [|done]. exfalso.
          rewrite Hg in E2. apply without_Some in E2 as [Hn2 Hf2].
          destruct (Hdir Hkd) as [_ Hch]. specialize (Hch x ltac:(by exists k2)). fold rp in Hch.
          rewrite <-(alike_removals cs HL) in Hch. rewrite El, removals_app in Hch.
          apply elem_of_app in Hch as [Hch|Hch]; [done|].
          apply elem_of_removals in Hch as (c' & Hc' & Er'). apply elem_of_cons in Hc' as [-> |Hc'].
          { assert (p ++ [x] = p) as E by congruence. by apply snoc_ne_self in E. }
          apply elem_of_list_split in Hc' as (l1 & l2 & E).
          assert (cs = (pre ++ c :: l1) ++ c' :: l2) as El' by (rewrite El, E; by rewrite <-app_assoc).
          pose proof (sorted_pre _ _ _ _ _ c Hsort El' ltac:(set_solver)) as Hle. unfold by_reverse_source in Hle.
          unfold removed_path in Er'. destruct (c_op c'); try done. destruct (c_source c') as [s'|]; [|done]. injection Er' as Er'.
          rewrite Es in Hle. cbn [d_path details_of] in Hle. rewrite Er' in Hle. by rewrite path_cmp_above in Hle. }
        assert (dirpath g p) as Hdp by (by eapply wf_dirpath).
        assert ((if is_kfile (n_kind k) || is_klink (n_kind k) then sys_unlink p
                 else if is_kdir (n_kind k) then sys_rmdir p
                 else throw (EApp "cowardly refusing to remove special file")) g = emit (delete p g)) as Hdel.
        { destruct (is_kdir (n_kind k)) eqn:Ekd.
          - apply is_kdir_true in Ekd. rewrite Ekd. cbn [is_kfile is_klink orb]. eapply rmdir_ok; try done.
            + destruct (Hdir Ekd) as [Hpd _]. unfold parent_dev in Hpd. unfold dev_of.
              destruct (path_snoc_case p) as [E|(a & x & E)]; [done|]. rewrite E, removelast_snoc in *.
              destruct (wf_parent f Hwf a x k Hk) as (da & Hda & _). rewrite Hg, without_out; [rewrite Hda in *; cbn; by f_equal|].
              intros Ha. pose proof (Hlow a Ha) as H. assert (above a (a ++ [x]) = true); [by apply above_app|congruence].
            + by apply Hbelow.
          - assert (is_kfile (n_kind k) || is_klink (n_kind k) = true) as ->.
            { unfold supported in Hsup. by destruct (n_kind k). }
            eapply unlink_ok; try done. intros E. by rewrite E in Ekd. }
        eexists. rewrite (bind_ok _ _ _ tt) by (cbv beta iota; by rewrite Hdel).
        cbn [o_res o_fs ret_]. split; [reflexivity|]. rewrite Hdel. cbn [o_fs emit]. rewrite without_snoc, <-Hg. split; [|done].
        apply wf_delete; [done|done|]. destruct (decide (n_kind k = KDir)) as [Ekd|Ekd]; [by apply Hbelow|].
        apply below_nil. intros r' Hr'. destruct (g !! (p ++ r')) as [k2|] eqn:E2; [|done]. exfalso.
        destruct (wf_prefix g _ _ _ Hwg E2 Hr') as (d & Hd & Hdk). congruence.
      + rewrite Er, app_nil_r. unfold accept_remove. rewrite Eo. eexists. split; [done|]. done.
    - split; [done|]. by rewrite without_nil.
    - exists r. split; [done|]. split; [|split; [|split]].
      + eapply accum_paths; [|exact Hr]. intros c t r' Hc Hr'. unfold accept_remove in Hr'. unfold clean_remove.
        destruct (c_op c); try (by injection Hr' as <-). destruct (c_source c); [|done].
        apply bind_inv in Hr' as ([] & _ & Hr'). by injection Hr' as <-.
      + rewrite Hf. unfold f1. apply without_perm. by apply alike_removals.
      + rewrite Hf in Hw. unfold f1. by rewrite <-(without_perm f _ _ (alike_removals cs HL)).
      + intros st Hst. destruct (Htr st Hst) as (pre & post & El & _ & Hst'). exists (removals pre). split; [|done].
        intros p Hp. rewrite <-(alike_removals cs HL), El, removals_app. set_solver.
  Qed.

  (** *** The temporary names *)
  Lemma slash_free2 (q : path) (n : node) : f !! q = Some n → contains "/" (text_name q) = false.
  Proof.
    intros Hq. destruct (path_snoc_case q) as [-> |(a & x & ->)]; [done|]. apply text_name_slash.
    by destruct (wf_comp f Hwf a x n Hq) as (_ & _ & _ & ?).
  Qed.
  Lemma tmp_facts2 (ph i : nat) (m : path * path) : m ∈ mv → ∃ x,
    tmp_name (e_cwd e) m.1 m.2 (e_uuid e ph i) = e_cwd e ++ [x] ∧ comp_ok x ∧
    f !! tmp_name (e_cwd e) m.1 m.2 (e_uuid e ph i) = None.
  Proof.
    intros Hm. destruct (db_tmp _ _ _ _ _ Hdb ph i m Hm) as (Hu & Hn & _). unfold tmp_name in *. eexists. split; [done|]. split; [|done].
    assert (contains "/" (text_name m.1) = false) as H1.
    { destruct (db_source _ _ _ _ _ Hdb m Hm) as (_ & _ & n & Hn' & _). by eapply slash_free2. }
    assert (contains "/" (text_name m.2) = false) as H2.
    { destruct (db_free _ _ _ _ _ Hdb m Hm) as (p & x & -> & Hx & _). apply text_name_slash. by destruct Hx as (_ & _ & _ & ?). }
    split; [done|]. split; [done|]. split; [done|].
    apply contains_app_slash; [done|]. apply contains_app_slash; [done|]. apply contains_app_slash; [done|].
    apply contains_app_slash; [done|]. apply contains_app_slash; [done|]. done.
  Qed.

  (** *** The dry run *)
  Lemma tmp_mount2 (ph i : nat) (m : path * path) : m ∈ mv →
    find_mount_point f (tmp_name (e_cwd e) m.1 m.2 (e_uuid e ph i)) = find_mount_point f (e_cwd e).
  Proof.
    intros Hm. destruct (tmp_facts2 ph i m Hm) as (x & E & Hx & Hn). rewrite E in Hn |- *.
    unfold find_mount_point. rewrite rev_app_distr. cbn [rev app fmp_existing].
    assert (exists_ f (rev (rev (e_cwd e)) ++ [x]) = false) as E'.
    { rewrite rev_involutive. unfold exists_. destruct (stat f (e_cwd e ++ [x])) as [n|] eqn:Es; [|done]. exfalso.
      destruct (db_cwd _ _ _ _ _ Hdb) as (d & Hd & Hk & _).
      rewrite stat_dirpath in Es; [by rewrite Hn in Es| |].
      - apply dirpath_snoc; [done|by exists d|done].
      - intros n' Hn'. congruence. }
    by rewrite E'.
  Qed.
  Lemma tmp_assigned2 (ph : nat) (l : list change) (c : change) (m : path * path) :
    c ∈ imap (assign_tmp e ph) l → move_of c = Some m →
    ∃ i, imap (assign_tmp e ph) l !! i = Some c ∧ c_tmp c = Some (tmp_name (e_cwd e) m.1 m.2 (e_uuid e ph i)).
  Proof.
    intros Hc Hm. apply elem_of_lookup_imap in Hc as (i & c1 & -> & Hi).
    exists i. split; [by rewrite list_lookup_imap, Hi|].
    assert (move_of c1 = Some m) as Hm1.
    { rewrite <-Hm, <-move_of_core, <-(move_of_core (assign_tmp e ph i c1)). by rewrite core_assign. }
    unfold move_of in Hm1. unfold assign_tmp. destruct (c_op c1); try done. destruct (c_source c1) as [s|]; [|done].
    by injection Hm1 as <-.
  Qed.

  Lemma dry_run2 (cs : list change) : alike cs → ∃ r, o_res (accept_pass e 0 true cs f) = Ok r ∧ alike r.2.
  Proof.
    intros HL. unfold accept_pass.
    set (l1 := sort_by by_reverse_source cs). assert (alike l1) as HL1 by (by apply alike_sort).
    set (l2 := sort_by by_reverse_source l1). assert (alike l2) as HL2 by (by apply alike_sort).
    set (l3 := sort_by by_destination (imap (assign_tmp e 0) l2)).
    assert (alike l3) as HL3 by (apply alike_sort, alike_imap; done).
    destruct (accum_progress (λ _ t, t = f) (accept_remove true) l1 f) as (r1 & Hr1 & Hf1); [|done|].
    { intros pre c post t El ->. assert (c ∈ l1) as Hc by (rewrite El; set_solver).
      destruct (entry_alike _ c HL1 Hc) as [(m & _ & _ & Eo & _)|[(p & k & Hp & Er & Eo & Emv & Hk & Es & Hsup)|(u & n & [t Eo] & _)]];
        unfold accept_remove; rewrite Eo; [by eexists| |by eexists].
      rewrite Es, d_is_file_of, d_is_symlink_of, d_is_dir_of. unfold supported in Hsup. destruct (n_kind k); try done; by eexists. }
    rewrite (bind_ok _ _ _ r1) by done. cbn [o_res o_fs]. rewrite Hf1.
    destruct (for_progress (λ _ t, t = f) (accept_premove true) (imap (assign_tmp e 0) l2) f) as [Hr Hf]; [|done|].
    { intros pre c post t El ->. split; [|apply pure_accept_premove].
      assert (c ∈ imap (assign_tmp e 0) l2) as Hc by (rewrite El; set_solver).
      destruct (entry_alike _ c (alike_imap 0 l2 HL2) Hc) as [(m & Hm & Emv & Eo & Ed & _ & s & Es & Ep)|[(p & k & Hp & Er & Eo & _)|(u & n & [t Eo] & _)]].
      2, 3: unfold accept_premove; by rewrite Eo.
      destruct (tmp_assigned2 0 l2 c m Hc Emv) as (i & _ & Et). unfold accept_premove. rewrite Eo, Es, Et, Ep, Ed.
      destruct (db_mount _ _ _ _ _ Hdb) as (mp & H0 & H). destruct (H m Hm) as [H1 H2].
      specialize (H0 ltac:(fold mv; intros E; rewrite E in Hm; by apply elem_of_nil in Hm)).
      rewrite (bind_get_ok _ _ f mp) by done.
      rewrite (bind_get_ok _ _ f mp) by (by rewrite tmp_mount2).
      rewrite (bind_get_ok _ _ f mp) by done. by rewrite decide_True. }
    rewrite (bind_ok _ _ _ tt) by done. cbn [o_res o_fs]. rewrite Hf.
    destruct (accum_progress (λ _ t, t = f) (accept_set e 0 true) (imap (λ i c, (i, c)) l3) f) as (r3 & Hr3 & Hf3); [|done|].
    { intros pre [i c] post t El ->. apply imap_snd_elem in El. simpl in El.
      assert (c ∈ l3) as Hc by (rewrite El; set_solver).
      destruct (entry_alike _ c HL3 Hc) as [(m & Hm & Emv & Eo & _)|[(p & k & Hp & Er & Eo & _)|(u & n & [t Eo] & _ & _ & Est & _ & Hsup & _)]].
      - exists (1, []). split; [|apply pure_accept_set]. unfold accept_set. by rewrite Eo.
      - exists (0, []). split; [|apply pure_accept_set]. unfold accept_set. by rewrite Eo.
      - unfold accept_set. rewrite Eo, Est. rewrite d_is_file_of, d_is_symlink_of, d_is_dir_of. unfold supported in Hsup.
        destruct (n_kind n); try done; by eexists. }
    rewrite (bind_ok _ _ _ r3) by done. cbn [o_res]. eexists. split; [reflexivity|]. done.
  Qed.

  (** *** Facts about the host after the removals *)
  Lemma kept_cwd : ∃ d, f1 !! e_cwd e = Some d ∧ n_kind d = KDir ∧ n_dev d = dev.
  Proof.
    destruct (db_cwd _ _ _ _ _ Hdb) as (d & Hd & H). exists d. split; [|done]. unfold f1. rewrite without_out; [done|].
    intros Hin. destruct (db_remove_stays _ _ _ _ _ Hdb _ Hin) as (E & _). by rewrite under_refl in E.
  Qed.
  Lemma kept_source (m : path * path) : m ∈ mv → m.1 ≠ [] ∧ parent_dev f1 m.1 = dev ∧
    ∃ n, f1 !! m.1 = Some n ∧ n_kind n = KDir ∧ n_dev n = dev.
  Proof.
    intros Hm. destruct (db_source _ _ _ _ _ Hdb m Hm) as (H1 & H2 & n & Hn & H3). split; [done|].
    assert (∀ p, p ∈ rp → under p m.1 = false) as Hout.
    { intros p Hp. by destruct (db_remove_stays _ _ _ _ _ Hdb _ Hp) as (_ & _ & _ & H); apply H. }
    split.
    - rewrite <-H2. unfold parent_dev. unfold f1. rewrite without_out; [done|]. intros Hin. specialize (Hout _ Hin).
      destruct (path_snoc_case m.1) as [E|(a & x & E)]; [done|]. rewrite E, removelast_snoc, under_app in Hout. done.
    - exists n. split; [|done]. unfold f1. rewrite without_out; [done|]. intros Hin. specialize (Hout _ Hin).
      by rewrite under_refl in Hout.
  Qed.
  Lemma without_none (q : path) : f !! q = None → f1 !! q = None.
  Proof. intros H. unfold f1. rewrite without_lookup, H. by destruct (decide _). Qed.

  Section run.
    Context (cs : list change).
    Hypothesis HL : alike cs.
    Hypothesis Hw1 : wf_tree f1.
    Let l2 := sort_by by_reverse_source (sort_by by_reverse_source cs).
    Let cs2 := imap (assign_tmp e 2) l2.
    Let cs3 := sort_by by_destination cs2.
    Lemma AL2 : alike cs2.
    Proof. apply alike_imap, alike_sort, alike_sort, HL. Qed.
    Lemma AL3 : alike cs3.
    Proof. apply alike_sort, AL2. Qed.

    Definition aside_of (m : path * path) : path :=
      match list_find (λ c, move_of c = Some m) cs2 with
      | Some (_, c) => default [] (c_tmp c)
      | None => []
      end.
    Lemma aside_spec (c : change) (m : path * path) : c ∈ cs2 → move_of c = Some m →
      ∃ i, cs2 !! i = Some c ∧ c_tmp c = Some (aside_of m) ∧ aside_of m = tmp_name (e_cwd e) m.1 m.2 (e_uuid e 2 i).
    Proof.
      intros Hc Hm.
      destruct (tmp_assigned2 2 l2 c m Hc Hm) as (i & Hi & Ht). fold cs2 in Hi.
      assert (aside_of m = tmp_name (e_cwd e) m.1 m.2 (e_uuid e 2 i)) as E; [|exists i; split; [done|]; split; congruence].
      unfold aside_of. destruct (list_find_elem_of (λ c, move_of c = Some m) cs2 c Hc Hm) as [[j c'] Hj]. rewrite Hj.
      apply list_find_Some in Hj as (Hj & Hm' & _).
      assert (i = j) as ->.
      { eapply (omap_pos move_of cs2); eauto. apply (alike_moves_nd cs2 AL2). }
      assert (c' = c) as -> by congruence. by rewrite Ht.
    Qed.
    Lemma mv_in2 (m : path * path) : m ∈ mv → ∃ c, c ∈ cs2 ∧ move_of c = Some m.
    Proof. intros Hm. apply elem_of_moves. by rewrite (alike_moves cs2 AL2). Qed.
    Lemma aside_tmp (m : path * path) : m ∈ mv → ∃ i c, cs2 !! i = Some c ∧ move_of c = Some m ∧
      aside_of m = tmp_name (e_cwd e) m.1 m.2 (e_uuid e 2 i).
    Proof.
      intros Hm. destruct (mv_in2 m Hm) as (c & Hc & Hmc). destruct (aside_spec c m Hc Hmc) as (i & Hi & _ & Ht). by exists i, c.
    Qed.

    Lemma a_tau : ∀ m, m ∈ mv → ∃ x, aside_of m = e_cwd e ++ [x] ∧ comp_ok x ∧ f1 !! aside_of m = None.
    Proof.
      intros m Hm. destruct (aside_tmp m Hm) as (i & c & _ & _ & ->). destruct (tmp_facts2 2 i m Hm) as (x & H1 & H2 & H3).
      exists x. split; [done|]. split; [done|]. by apply without_none.
    Qed.
    Lemma a_tau_inj : ∀ m m', m ∈ mv → m' ∈ mv → aside_of m = aside_of m' → m = m'.
    Proof.
      intros m m' Hm Hm' E. destruct (aside_tmp m Hm) as (i & c & Hi & Hmc & Et). destruct (aside_tmp m' Hm') as (j & c' & Hj & Hmc' & Et').
      destruct (decide (m = m')) as [|Hne]; [done|]. exfalso. destruct (decide (i = j)) as [-> |Hij].
      - congruence.
      - apply (db_tmp_distinct _ _ _ _ _ Hdb i j m m' Hm Hm' Hne Hij). congruence.
    Qed.
    Lemma mv_arrival (m : path * path) : m ∈ mv → m.2 ∈ arrivals sel.
    Proof.
      intros Hm. apply elem_of_moves in Hm as (c & Hc & Hmc).
      destruct (entry3 c c Hc eq_refl) as [(m1 & _ & E1 & Eo & Ed & _)|[(p & k & Hp & Er & Eo & E & _)|(u & n & _ & E & _)]]; [|congruence..].
      apply elem_of_arrivals. exists c. split; [done|]. rewrite Eo. split; [done|]. congruence.
    Qed.
    Lemma a_tau_arrival (m : path * path) (q : path) : m ∈ mv → q ∈ arrivals sel → under (aside_of m) q = false.
    Proof.
      intros Hm Hq. destruct (aside_tmp m Hm) as (i & c & _ & _ & ->). by apply (db_tmp _ _ _ _ _ Hdb 2 i m Hm).
    Qed.
    Lemma a_tau_dst : ∀ m m', m ∈ mv → m' ∈ mv → under (aside_of m) m'.2 = false.
    Proof. intros m m' Hm Hm'. apply a_tau_arrival; [done|]. by apply mv_arrival. Qed.
    Lemma a_dst_inj : ∀ m m', m ∈ mv → m' ∈ mv → m.2 = m'.2 → m = m'.
    Proof.
      intros m m' Hm Hm' E. apply elem_of_moves in Hm as (c & Hc & Hmc). apply elem_of_moves in Hm' as (c' & Hc' & Hmc').
      destruct (entry3 c c Hc eq_refl) as [(m1 & _ & E1 & Eo & Ed & _)|[(p & k & _ & _ & _ & En & _)|(u & n & _ & En & _)]]; [|congruence..].
      destruct (entry3 c' c' Hc' eq_refl) as [(m2 & _ & E2 & Eo' & Ed' & _)|[(p & k & _ & _ & _ & En & _)|(u & n & _ & En & _)]]; [|congruence..].
      assert (m1 = m) as -> by congruence. assert (m2 = m') as -> by congruence.
      apply elem_of_list_lookup in Hc as [i Hi]. apply elem_of_list_lookup in Hc' as [j Hj].
      assert (i = j) as ->; [|congruence]. eapply (omap_pos arrival sel i j c c' (c_dest c)); [apply Hdb|done|done|..].
      - unfold arrival. by rewrite Eo.
      - unfold arrival. rewrite Eo'. congruence.
    Qed.
    Lemma a_src_inj : ∀ m m', m ∈ mv → m' ∈ mv → m.1 = m'.1 → m = m'.
    Proof.
      intros m m' Hm Hm' E. pose proof (db_sources _ _ _ _ _ Hdb) as HNs. fold mv in HNs.
      apply elem_of_list_lookup in Hm as [a Ha]. apply elem_of_list_lookup in Hm' as [b Hb].
      assert (a = b) as ->; [|congruence].
      eapply (NoDup_lookup mv.*1); [done|rewrite list_lookup_fmap, Ha; done|]. rewrite list_lookup_fmap, Hb. cbn. by f_equal.
    Qed.
    Definition a_cwd1 (m : path * path) (Hm : m ∈ mv) := proj1 (db_cwd_stays _ _ _ _ _ Hdb m Hm).
    Definition a_cwd2 (m : path * path) (Hm : m ∈ mv) := proj2 (db_cwd_stays _ _ _ _ _ Hdb m Hm).
    Definition aside_step2 := aside_step f1 (e_cwd e) dev mv aside_of Hw1 kept_cwd a_cwd1 a_cwd2
      kept_source a_src_inj a_dst_inj a_tau a_tau_inj a_tau_dst.
    Definition place_gen2 := place_gen f1 (e_cwd e) dev mv aside_of Hw1 kept_cwd a_cwd1 a_cwd2
      kept_source a_src_inj a_dst_inj a_tau a_tau_inj a_tau_dst.
    Definition set_gen2 := set_gen f1 (e_cwd e) dev mv aside_of Hw1 kept_cwd a_cwd1 a_cwd2
      kept_source a_src_inj a_dst_inj a_tau a_tau_inj a_tau_dst.

    Lemma a_sorted2 : StronglySorted (cmp_le by_reverse_source) cs2.
    Proof.
      eapply (ss_core by_reverse_source l2 cs2).
      - done.
      - symmetry. apply core_imap_assign.
      - apply sort_by_sorted, by_reverse_source_preorder.
    Qed.
    Lemma a_sorted3 : StronglySorted (cmp_le by_destination) cs3.
    Proof. apply sort_by_sorted, by_destination_preorder. Qed.

    (** *** Phase 2 *)
    (** Directories inside others go first. *)
    Definition closed (d : list (path * path)) : Prop := ∀ a b, a ∈ d → b ∈ mv → above a.1 b.1 = true → b ∈ d.
    Lemma moved_aside2 : o_res (for_ cs2 (accept_premove false) f1) = Ok tt ∧
      aside f1 mv aside_of mv (o_fs (for_ cs2 (accept_premove false) f1)) ∧
      ∀ st, st ∈ o_trace (for_ cs2 (accept_premove false) f1) →
        ∃ d, (∀ m, m ∈ d → m ∈ mv) ∧ closed d ∧ aside f1 mv aside_of d st.
    Proof.
      destruct (for_shots (λ pre t, closed (moves pre) ∧ aside f1 mv aside_of (moves pre) t) (accept_premove false) cs2 f1 shot_premove) as (Hr & [_ Hf] & Htr).
      - intros pre c post t El [Hcl Ht]. assert (c ∈ cs2) as Hc by (rewrite El; set_solver).
        rewrite moves_snoc.
        destruct (entry_alike _ c AL2 Hc) as [(m & Hm & Emv & Eo & Ed & _ & s & Es & Ep)|[(p & k & _ & _ & Eo & Emv & _)|(u & n & [t' Eo] & Emv & _)]].
        2, 3: unfold accept_premove; rewrite Eo, Emv, app_nil_r; done.
        rename Hcl into Hclosed.
        destruct (aside_spec c m Hc Emv) as (i & _ & Et & _). unfold accept_premove. rewrite Eo, Es, Et, Ep, Emv.
        pose proof (alike_moves_nd cs2 AL2) as HND. rewrite (moves_split cs2 pre post c m El Emv) in HND.
        apply NoDup_app in HND as (_ & Hdisj & HND). apply NoDup_cons in HND as [Hpost _].
        assert (∀ m', m' ∈ moves pre → m' ∈ mv) as Hsub.
        { intros m' Hm'. rewrite <-(alike_moves cs2 AL2), El, moves_app. set_solver. }
        assert (∀ m', m' ∈ mv → above m.1 m'.1 = true → m' ∈ moves pre) as Hinner.
        { intros m' Hm' Ha. apply above_spec in Ha as [Ha Hne]. apply under_spec in Ha as [[|y r] Er].
          { by rewrite app_nil_r in Er. }
          destruct (mv_in2 m' Hm') as (c' & Hc' & Emv'). rewrite El in Hc'.
          apply elem_of_app in Hc' as [Hc'|Hc']; [apply elem_of_moves; by exists c'|]. exfalso.
          apply elem_of_cons in Hc' as [-> |Hc'].
          { assert (m = m') as -> by congruence. done. }
          apply elem_of_list_split in Hc' as (p1 & p2 & Epost).
          assert (cs2 = (pre ++ c :: p1) ++ c' :: p2) as El' by (rewrite El, Epost; by rewrite <-app_assoc).
          pose proof (sorted_pre _ _ _ _ _ c a_sorted2 El' ltac:(set_solver)) as Hle. unfold by_reverse_source in Hle.
          destruct (entry_alike _ c' AL2 ltac:(rewrite El'; set_solver)) as [(m1 & _ & E1 & _ & _ & _ & s' & Es' & Ep')|[(p & k & _ & _ & _ & E & _)|(u & n & _ & E & _)]]; [|congruence..].
          assert (m1 = m') as -> by congruence. rewrite Es, Es', Ep, Ep', Er in Hle. by rewrite path_cmp_above in Hle. }
        destruct (aside_step2 (moves pre) m t Hsub Hm) as [H1 H2]; [..|exact Ht|].
        + intros Hin. apply (Hdisj m Hin). left.
        + intros m' Hm'. destruct (under m'.1 m.1) eqn:U; [|done]. exfalso.
          pose proof Hm' as Hin. apply elem_of_moves in Hm' as (c' & Hc' & Emv').
          pose proof (sorted_pre _ _ _ _ _ _ a_sorted2 El Hc') as Hle. unfold by_reverse_source in Hle.
          destruct (entry_alike _ c' AL2 ltac:(rewrite El; set_solver)) as [(m1 & _ & E1 & _ & _ & _ & s' & Es' & Ep')|[(p & k & _ & _ & _ & E & _)|(u & n & _ & E & _)]]; [|congruence..].
          assert (m1 = m') as -> by congruence. rewrite Es, Es', Ep, Ep' in Hle.
          apply under_spec in U as [[|y r] Er].
          * rewrite app_nil_r in Er. apply (Hdisj m' Hin).
            assert (m' = m) as -> by (apply a_src_inj; [by apply Hsub|done|done]). left.
          * rewrite Er in Hle. by rewrite path_cmp_above in Hle.
        + exact Hinner.
        + rewrite H1. split; [done|]. split; [|exact H2].
          intros a b Ha Hb Hab. apply elem_of_app. left. apply elem_of_app in Ha as [Ha|Ha]; [by eapply Hclosed|].
          apply elem_of_list_singleton in Ha as ->. by apply Hinner.
      - split; [intros a b Ha; by apply elem_of_nil in Ha|]. split; [done|]. split.
        + intros m r Hm. by apply elem_of_nil in Hm.
        + intros q _. done.
      - split; [done|]. split.
        2: { intros st Hst. destruct (Htr st Hst) as (pre & post & El & Hcl & Has). exists (moves pre). split; [|by split].
             intros m Hm. rewrite <-(alike_moves cs2 AL2), El, moves_app. set_solver. }
        destruct Hf as (H1 & H2 & H3). pose proof (alike_moves cs2 AL2) as HP.
        split; [done|]. split.
        + intros m r Hm. apply H2. by rewrite HP.
        + intros q Hq. rewrite H3 by (intros m Hm; apply Hq; by rewrite <-HP).
          apply left_behind_ext. intros m. by rewrite HP.
    Qed.

    (** *** Phase 3 *)
    Lemma split_before (pre post : list change) (c c' : change) (y : string) (r : path) : cs3 = pre ++ c :: post → c' ∈ cs3 →
      c_dest c = c_dest c' ++ y :: r → c' ∈ pre.
    Proof.
      intros El Hc' Ed. rewrite El in Hc'. apply elem_of_app in Hc' as [Hc'|Hc']; [done|]. exfalso.
      apply elem_of_cons in Hc' as [-> |Hc'].
      { symmetry in Ed. by apply snoc_ne_self in Ed. }
      apply elem_of_list_split in Hc' as (p1 & p2 & Epost).
      assert (cs3 = (pre ++ c :: p1) ++ c' :: p2) as El' by (rewrite El, Epost; by rewrite <-app_assoc).
      pose proof (sorted_pre _ _ _ _ _ c a_sorted3 El' ltac:(set_solver)) as Hle. unfold by_destination in Hle.
      rewrite Ed in Hle. by rewrite path_cmp_above in Hle.
    Qed.
    Lemma placed_above (pre post : list change) (c : change) (m : path * path) : cs3 = pre ++ c :: post → m ∈ mv →
      above m.2 (c_dest c) = true → m ∈ moves pre.
    Proof.
      intros El Hm Ha. apply above_spec in Ha as [Ha Hne]. apply under_spec in Ha as [[|y r] Er]; [by rewrite app_nil_r in Er|].
      assert (m ∈ moves cs3) as Hin by (by rewrite (alike_moves cs3 AL3)).
      apply elem_of_moves in Hin as (c' & Hc' & Emv'). apply elem_of_moves. exists c'. split; [|done].
      destruct (entry_alike _ c' AL3 Hc') as [(m1 & _ & E1 & _ & Ed' & _)|[(p & k & _ & _ & _ & E & _)|(u & n & _ & E & _)]]; [|congruence..].
      assert (m1 = m) as -> by congruence. eapply split_before; [exact El|done|]. by rewrite Ed'.
    Qed.

    Definition near (q : path) : Prop := q = e_cwd e ∨ ∃ m, m ∈ mv ∧ above q m.2 = true.
    Definition placed (pre : list change) (g : fs) : Prop := ∃ ch,
      placing f1 mv aside_of ch (moves pre) g ∧
      (∀ q n, (q, n) ∈ ch → ∃ c, c ∈ pre ∧ is_set c ∧ c_dest c = q ∧ (near q → n_dev n = dev)) ∧
      (∀ c u n, c ∈ pre → installs c u n → ∃ n', (c_dest c, n') ∈ ch ∧ same_entry n n').

    Lemma set_op (c : change) : is_set c → c_op c ≠ ORemove.
    Proof. intros [t ->]. done. Qed.
    Lemma core_set (c c0 : change) : core c = core c0 → is_set c → is_set c0.
    Proof. intros E [t Ht]. apply core_eq in E as (_ & E & _). exists t. congruence. Qed.
    Lemma arrival_in (l : list change) (c : change) : alike l → c ∈ l → c_op c ≠ ORemove → c_dest c ∈ arrivals sel.
    Proof. intros Hl Hc Ho. rewrite <-(alike_arrivals l Hl). apply elem_of_arrivals. by exists c. Qed.

    (** The sandbox storage is as it was. *)
    Lemma storage_kept (pre post : list change) (g : fs) (ch : list (path * node)) : cs3 = pre ++ post →
      placing f1 mv aside_of ch (moves pre) g →
      (∀ q n, (q, n) ∈ ch → ∃ c, c ∈ pre ∧ is_set c ∧ c_dest c = q ∧ (near q → n_dev n = dev)) →
      ∀ q, under ub q = true → is_Some (f !! q) ∨ post = [] → g !! q = f !! q.
    Proof.
      intros El (_ & _ & _ & H3) Hch q Hq Hor.
      assert (f1 !! q = f !! q) as Hf1.
      { unfold f1. apply without_out. intros Hin. destruct (db_remove_stays _ _ _ _ _ Hdb q Hin) as (_ & _ & E & _). congruence. }
      destruct (H3 q) as [_ H].
      - intros Hin. apply elem_of_list_fmap in Hin as ([q' n'] & -> & Hin). destruct (Hch _ _ Hin) as (c & Hc & Hs & Ed & _).
        assert (c ∈ cs3) as Hc3 by (rewrite El; set_solver).
        destruct (entry_alike _ c AL3 Hc3) as [(m & _ & _ & Eo & _)|[(p & k & _ & _ & Eo & _)|(u & n & _ & _ & _ & _ & _ & _ & Hub & _)]];
          [destruct Hs as [t Hs]; congruence..|]. cbn in Ed, Hq. congruence.
      - intros m Hm Hn. destruct Hor as [Hs|Hpost].
        + apply (tau_not_src f1 (e_cwd e) mv aside_of Hw1 a_tau m q Hm). by rewrite Hf1.
        + exfalso. apply Hn. rewrite Hpost, app_nil_r in El. rewrite <-El. by rewrite (alike_moves cs3 AL3).
      - rewrite H.
        + rewrite left_behind_out; [done|]. intros m Hm. destruct (db_storage _ _ _ _ _ Hdb m Hm) as (H1 & H2 & _).
          destruct (under m.1 q) eqn:U; [|done]. destruct (under_comparable _ _ _ U Hq); congruence.
        + intros m Hm. assert (m ∈ mv) as Hm'.
          { rewrite <-(alike_moves cs3 AL3), El, moves_app. set_solver. }
          destruct (db_storage _ _ _ _ _ Hdb m Hm') as (_ & _ & H1 & H2).
          destruct (under m.2 q) eqn:U; [|done]. destruct (under_comparable _ _ _ U Hq); congruence.
    Qed.

    (** While one object is installed. *)
    Definition half (c : change) (t st : fs) : Prop := ∃ i u n, installs c u n ∧ installing e 2 i c n t st ∧
      (is_kfile (n_kind n) = true → t !! with_extension (c_dest c) (e_uuid e 3 i) = None).
    Definition on_way (st : fs) : Prop := ∃ pre post, cs3 = pre ++ post ∧
      (placed pre st ∨ ∃ c post' t, post = c :: post' ∧ placed pre t ∧ half c t st).

    Lemma put_in_place2 (g : fs) : aside f1 mv aside_of mv g →
      ∃ r, o_res (accum (imap (λ i c, (i, c)) cs3) (accept_set e 2 false) g) = Ok r ∧
        placed cs3 (o_fs (accum (imap (λ i c, (i, c)) cs3) (accept_set e 2 false) g)) ∧
        ∀ st, st ∈ o_trace (accum (imap (λ i c, (i, c)) cs3) (accept_set e 2 false) g) → on_way st.
    Proof.
      intros Hg.
      destruct (accum_states (λ pre, placed pre.*2) (λ ic t st, st = o_fs (accept_set e 2 false ic t) ∨ half ic.2 t st) (accept_set e 2 false)
        (imap (λ i c, (i, c)) cs3) g) as (r & Hr & Hf & Htr).
      - intros pre [i c] post t El Ht. apply imap_snd_elem in El. simpl in El.
        set (pr := pre.*2) in *. set (po := post.*2) in *.
        rewrite fmap_app. cbn [fmap list_fmap snd]. fold pr.
        assert (c ∈ cs3) as Hc by (rewrite El; set_solver).
        assert (∀ c', c' ∈ pr → c' ∈ cs3) as Hpr by (intros c' Hc'; rewrite El; set_solver).
        assert (∀ m', m' ∈ moves pr → m' ∈ mv) as Hsub.
        { intros m' Hm'. rewrite <-(alike_moves cs3 AL3), El, moves_app. set_solver. }
        destruct Ht as (ch & Hpl & Hch & Hin).
        assert (∀ c', c' ∈ pr → c_op c ≠ ORemove → c_op c' ≠ ORemove → c_dest c ≠ c_dest c') as Hapart.
        { intros c' Hc' Ho Ho'. by eapply alike_apart; [apply AL3|exact El|..]. }
        unfold placed. rewrite moves_snoc.
        destruct (entry_alike _ c AL3 Hc) as [(m & Hm & Emv & Eo & Ed & _ & s & Es & Ep)|[(p & k & _ & _ & Eo & Emv & _)|(u & n & Hinst)]].
        + rewrite Emv.
          assert (c ∈ cs2) as Hc2 by (by rewrite <-(sort_by_perm by_destination cs2)).
          destruct (aside_spec c m Hc2 Emv) as (i' & _ & Et & _).
          pose proof (alike_moves_nd cs3 AL3) as HND. rewrite (moves_split cs3 pr po c m El Emv) in HND.
          apply NoDup_app in HND as (_ & Hdisj & HND). apply NoDup_cons in HND as [Hpost _].
          destruct (db_free _ _ _ _ _ Hdb m Hm) as (p & x & Ep2 & Hx & Hfree & Hpar & Hpdev). fold rp f1 mv in Hfree, Hpar, Hpdev.
          destruct (place_gen2 ch (moves pr) m t p x Ep2 Hx) as [H1 H2]; [..|exact Hfree| |exact Hsub|exact Hm| | | |exact Hpl|].
          * intros q n Hq. destruct (Hch q n Hq) as (c' & Hc' & Hs' & Ed' & _). split.
            -- destruct (under m.2 q) eqn:U; [|done]. exfalso. apply under_spec in U as [[|y r'] Er].
               ++ rewrite app_nil_r in Er. apply (Hapart c' Hc'); [by rewrite Eo|by apply set_op|]. congruence.
               ++ pose proof (sorted_pre _ _ _ _ _ _ a_sorted3 El Hc') as Hle. unfold by_destination in Hle.
                  rewrite Ed, Ed', Er in Hle. by rewrite path_cmp_above in Hle.
            -- apply a_tau_arrival; [done|]. rewrite <-Ed'. eapply arrival_in; [apply AL3|by apply Hpr|by apply set_op].
          * destruct Hpar as [(c1 & d1 & Hc1 & Hs1 & Ed1 & Est1 & Hdir1)|(Hno & d1 & Hk1 & Ha1)].
            -- left. destruct (alike_of cs3 c1 AL3 Hc1) as (c1' & Hc1' & Ec1).
               assert (is_set c1') as Hs1' by (by eapply core_set).
               destruct (entry_alike _ c1' AL3 Hc1') as [(m1 & _ & _ & Eo1 & _)|[(p1 & k1 & _ & _ & Eo1 & _)|(u1 & n1 & Hi1)]];
                 [destruct Hs1' as [t1 Hs1']; congruence..|].
               apply core_eq in Ec1 as (E1 & _ & _ & E4).
               assert (c1' ∈ pr) as Hc1p.
               { eapply (split_before pr po c c1' x []); [exact El|done|]. rewrite Ed, Ep2, E1, Ed1. done. }
               destruct (Hin c1' u1 n1 Hc1p Hi1) as (n1' & Hn1' & Hsame). exists n1'.
               rewrite E1, Ed1 in Hn1'. split; [done|]. split.
               ++ destruct Hsame as [<- _]. destruct Hi1 as (_ & _ & _ & Est' & _). assert (d1 = details_of u1 n1) as -> by congruence.
                  rewrite d_is_dir_of in Hdir1. by apply is_kdir_true.
               ++ destruct (Hch _ _ Hn1') as (_ & _ & _ & _ & Hnear). apply Hnear. right. exists m. split; [done|].
                  rewrite Ep2. by apply above_app.
            -- right. split.
               ++ intros Hin'. apply elem_of_list_fmap in Hin' as ([q n'] & E & Hq). simpl in E. subst q.
                  destruct (Hch _ _ Hq) as (c' & Hc' & Hs' & Ed' & _).
                  destruct (alike_in cs3 c' AL3 (Hpr c' Hc')) as (c0 & Hc0 & Ec0).
                  apply (Hno c0 Hc0); [by eapply core_set|]. apply core_eq in Ec0 as (E1 & _). congruence.
               ++ exists d1. split; [done|]. split; [by apply Hpdev|].
                  eapply arranged_ext; [done| |exact Ha1]. intros m' Hu. rewrite elem_of_list_filter. split; [|by intros [_ ?]].
                  intros Hm'. split; [|done]. apply above_spec. split; [rewrite Ep2; eapply under_trans; [exact Hu|apply under_app]|].
                  intros E. rewrite E, Ep2 in Hu. apply under_spec in Hu as [r' Er]. rewrite <-app_assoc in Er.
                  symmetry in Er. by apply snoc_ne_self in Er.
          * intros n Hn. destruct (Hch _ _ Hn) as (_ & _ & _ & _ & Hnear). apply Hnear. by left.
          * intros Hin'. apply (Hdisj m Hin'). left.
          * intros m' Hm'. destruct (under m.2 m'.2) eqn:U; [|done]. exfalso.
            pose proof Hm' as Hin'. apply elem_of_moves in Hm' as (c' & Hc' & Emv').
            destruct (entry_alike _ c' AL3 (Hpr c' Hc')) as [(m1 & _ & E1 & Eo' & Ed' & _)|[(p' & k' & _ & _ & _ & E & _)|(u & n & _ & E & _)]]; [|congruence..].
            assert (m1 = m') as -> by congruence. apply under_spec in U as [[|y r'] Er].
            -- rewrite app_nil_r in Er. apply (Hapart c' Hc'); [by rewrite Eo|by rewrite Eo'|congruence].
            -- pose proof (sorted_pre _ _ _ _ _ _ a_sorted3 El Hc') as Hle. unfold by_destination in Hle.
               rewrite Ed, Ed', Er in Hle. by rewrite path_cmp_above in Hle.
          * intros m' Hm' Ha. eapply placed_above; [exact El|done|]. by rewrite Ed.
          * unfold accept_set. rewrite Eo, Et, Ed. eexists. rewrite (bind_ok _ _ _ tt) by (by rewrite H1). rewrite H1.
            cbn [o_res o_fs o_trace emit ret_]. split; [done|]. split.
            2: { intros st Hst. left. rewrite app_nil_r in Hst. by apply elem_of_list_singleton in Hst. }
            exists ch. split; [exact H2|]. split.
            -- intros q n Hq. destruct (Hch q n Hq) as (c' & Hc' & H). exists c'. split; [set_solver|done].
            -- intros c' u' n' Hc' Hi'. apply elem_of_app in Hc' as [Hc'|Hc']; [by eapply Hin|].
               apply elem_of_list_singleton in Hc' as ->. destruct Hi' as (_ & E & _). congruence.
        + rewrite Emv, app_nil_r. unfold accept_set. rewrite Eo. eexists. split; [done|]. split; [|intros st Hst; by apply elem_of_nil in Hst]. exists ch. cbn [o_fs ret_]. split; [done|]. split.
          * intros q n Hq. destruct (Hch q n Hq) as (c' & Hc' & H). exists c'. split; [set_solver|done].
          * intros c' u' n' Hc' Hi'. apply elem_of_app in Hc' as [Hc'|Hc']; [by eapply Hin|].
            apply elem_of_list_singleton in Hc' as ->. destruct Hi' as ([t' E] & _). congruence.
        + pose proof Hinst as ([ty Eo] & Emv & _ & Est & Hu & Hsup & Hub & c0 & Hc0 & Ec0). rewrite Emv, app_nil_r.
          assert (is_set c) as Hset by (by exists ty).
          destruct (db_set _ _ _ _ _ Hdb c0 Hc0 ltac:(by eapply core_set))
            as (u0 & n0 & p & x & Est0 & Hu0 & _ & Ed & Hx & _ & Hpar & Hway & Hdevs & Htmp).
          fold rp f1 mv in Hpar, Hway, Hdevs, Htmp.
          apply core_eq in Ec0 as (E1 & _ & _ & E4). rewrite <-E1 in Ed, Hway, Hdevs, Htmp.
          assert (details_of u n = details_of u0 n0) as Edet by congruence.
          assert (u0 = u) as -> by (injection Edet; done). assert (n0 = n) as -> by congruence. clear Edet Est0 Hu0.
          pose proof Hpl as (Hwt & P1 & P2 & P3).
          assert (∀ m', m' ∈ mv → under m'.2 (c_dest c) = true → m' ∈ moves pr) as Hplaced.
          { intros m' Hm' Hu'. apply under_above in Hu' as [E|Ha]; [|by eapply placed_above].
            exfalso. pose proof Hm' as Hm2. rewrite <-(alike_moves cs3 AL3) in Hm2. rewrite El, moves_app in Hm2.
            apply elem_of_app in Hm2 as [Hm2|Hm2].
            - apply elem_of_moves in Hm2 as (c' & Hc' & Emv').
              destruct (entry_alike _ c' AL3 (Hpr c' Hc')) as [(m1 & _ & E1' & Eo' & Ed' & _)|[(p' & k' & _ & _ & _ & E' & _)|(u' & n' & _ & E' & _)]]; [|congruence..].
              apply (Hapart c' Hc'); [by rewrite Eo|by rewrite Eo'|congruence].
            - apply elem_of_moves in Hm2 as (c' & Hc' & Emv'). apply elem_of_cons in Hc' as [-> |Hc']; [congruence|].
              apply elem_of_list_split in Hc' as (p1 & p2 & Epost).
              assert (cs3 = (pr ++ c :: p1) ++ c' :: p2) as El' by (rewrite El, Epost; by rewrite <-app_assoc).
              destruct (entry_alike _ c' AL3 ltac:(rewrite El'; set_solver)) as [(m1 & _ & E1' & Eo' & Ed' & _)|[(p' & k' & _ & _ & _ & E' & _)|(u' & n' & _ & E' & _)]]; [|congruence..].
              apply (alike_apart cs3 (pr ++ c :: p1) p2 c' c AL3 El'); [set_solver|by rewrite Eo'|by rewrite Eo|congruence]. }
          assert (∀ q y, under (c_dest c) q = false → q = p ∨ q = p ++ [y] → q ∉ arrivals sel ∨ q = p → ∀ m', under m'.2 q = true → m' ∈ moves pr ↔ m' ∈ mv) as Hiff.
          { intros q y _ Hq Hna m' Hu'. split; [by apply Hsub|]. intros Hm'. apply Hplaced; [done|]. rewrite Ed.
            destruct Hq as [-> | ->].
            - eapply under_trans; [exact Hu'|apply under_app].
            - apply under_snoc in Hu' as [E|Hu'].
              + destruct Hna as [Hna|Hna]; [|by apply snoc_ne_self in Hna].
                exfalso. apply Hna. rewrite <-E. by apply mv_arrival.
              + eapply under_trans; [exact Hu'|apply under_app]. }
          assert (c_dest c ∈ arrivals sel) as Harr by (eapply arrival_in; [apply AL3|done|by rewrite Eo]).
          assert (under (c_dest c) p = false) as Hdp.
          { destruct (under (c_dest c) p) eqn:U; [|done]. rewrite Ed in U. apply under_spec in U as [r' Er]. rewrite <-app_assoc in Er.
            symmetry in Er. by apply snoc_ne_self in Er. }
          assert (∀ m', m' ∈ mv → under (aside_of m') (c_dest c) = false ∧ under (aside_of m') p = false) as Hasd.
          { intros m' Hm'. pose proof (a_tau_arrival m' (c_dest c) Hm' Harr) as H. split; [done|].
            destruct (under (aside_of m') p) eqn:U; [|done]. rewrite Ed in H. by rewrite (under_trans _ _ _ U (under_app p [x])) in H. }
          assert (c_dest c ∉ ch.*1) as Hnch.
          { intros Hin'. apply elem_of_list_fmap in Hin' as ([q n'] & E & Hq). simpl in E. subst q.
            destruct (Hch _ _ Hq) as (c' & Hc' & Hs' & Ed' & _). apply (Hapart c' Hc'); [by rewrite Eo|by apply set_op|done]. }
          assert (arranged f1 mv mv (c_dest c) (t !! c_dest c)) as Hat.
          { eapply arranged_ext; [done| |apply P3; [done|]].
            - intros m' Hu'. split; [by apply Hsub|]. intros Hm'. by apply Hplaced.
            - intros m' Hm' _. by apply Hasd. }
          assert (p ∉ ch.*1 → arranged f1 mv mv p (t !! p)) as Hap.
          { intros Hpch. eapply arranged_ext; [done| |apply P3; [done|]].
            - apply (Hiff p x); [done|by left|by right].
            - intros m' Hm' _. by apply Hasd. }
          assert (is_dir_at t p) as Hdirp.
          { destruct Hpar as [(c1 & d1 & Hc1 & Hs1 & Ed1 & Est1 & Hdir1)|(Hno & d1 & Hk1 & Ha1)].
            - destruct (alike_of cs3 c1 AL3 Hc1) as (c1' & Hc1' & Ec1).
              assert (is_set c1') as Hs1' by (by eapply core_set).
              destruct (entry_alike _ c1' AL3 Hc1') as [(m1 & _ & _ & Eo1 & _)|[(p1 & k1 & _ & _ & Eo1 & _)|(u1 & n1 & Hi1)]];
                 [destruct Hs1' as [t1 Hs1']; congruence..|].
              apply core_eq in Ec1 as (E1' & _ & _ & E4').
              assert (c1' ∈ pr) as Hc1p.
              { eapply (split_before pr po c c1' x []); [exact El|done|]. rewrite Ed, E1', Ed1. done. }
              destruct (Hin c1' u1 n1 Hc1p Hi1) as (n1' & Hn1' & Hsame). exists n1'.
              rewrite E1', Ed1 in Hn1'. split; [by apply P2|]. destruct Hsame as [<- _].
              destruct Hi1 as (_ & _ & _ & Est' & _). assert (d1 = details_of u1 n1) as -> by congruence.
              rewrite d_is_dir_of in Hdir1. by apply is_kdir_true.
            - exists d1. split; [|done]. apply (arranged_det f1 mv mv p); [|done]. apply Hap.
              intros Hin'. apply elem_of_list_fmap in Hin' as ([q n'] & E & Hq). simpl in E. subst q.
              destruct (Hch _ _ Hq) as (c' & Hc' & Hs' & Ed' & _).
              destruct (alike_in cs3 c' AL3 (Hpr c' Hc')) as (c2 & Hc2 & Ec2).
              apply (Hno c2 Hc2); [by eapply core_set|]. apply core_eq in Ec2 as (E1' & _). congruence. }
          destruct (db_staged _ _ _ _ _ Hdb c0 (details_of u n) Hc0 ltac:(congruence)) as (ru & nu & _ & _ & Eu).
          assert (u = ub ++ ru) as Eub by (injection Eu; done).
          assert (t !! u = Some n) as Htu.
          { rewrite <-Hu. eapply (storage_kept pr (c :: po)); [exact El|exact Hpl|exact Hch| |left; by exists n].
            rewrite Eub. apply under_app. }
          assert (is_kfile (n_kind n) = true → e_uuid e 3 i ≠ "" ∧ contains "/" (e_uuid e 3 i) = false ∧
            t !! with_extension (c_dest c) (e_uuid e 3 i) = None ∧ with_extension (c_dest c) (e_uuid e 3 i) ≠ c_dest c) as Hfresh.
          { intros Hkf. destruct (Htmp Hkf i) as (T1 & T2 & T3 & T4 & T5). split; [done|]. split; [done|].
            set (tmp := with_extension (c_dest c) (e_uuid e 3 i)) in *.
            assert (tmp = p ++ [file_stem x +:+ "." +:+ e_uuid e 3 i]) as Etmp by (unfold tmp; by rewrite Ed, with_extension_snoc).
            split; [|intros E; apply T4; by rewrite E]. apply (arranged_det f1 mv mv tmp); [|done].
            eapply arranged_ext; [done| |apply P3].
            - eapply (Hiff tmp); [|right; exact Etmp|by left]. destruct (under (c_dest c) tmp) eqn:U; [|done]. exfalso.
              rewrite Etmp, Ed in U. destruct (decide (x = file_stem x +:+ "." +:+ e_uuid e 3 i)) as [Ex|Ex].
              + apply T4. rewrite Etmp, <-Ex, <-Ed. done.
              + by rewrite siblings in U.
            - intros Hin'. apply elem_of_list_fmap in Hin' as ([q n'] & E & Hq). simpl in E. subst q.
              destruct (Hch _ _ Hq) as (c' & Hc' & Hs' & Ed' & _). apply T4. rewrite <-Ed'.
              eapply arrival_in; [apply AL3|by apply Hpr|by apply set_op].
            - intros m' Hm' _. destruct (aside_tmp m' Hm') as (j & c' & _ & _ & ->). by apply T5. }
          destruct (set_ok e 2 i c t ty u p x n Hwt Eo Est Htu Hsup Ed Hx Hdirp) as (r & n' & Hr & _ & Hfs & Hsame & Hwn & Hdn); [by apply Hway|exact Hfresh|].
          pose proof (set_trace e 2 i c t ty u p x n Hwt Eo Est Htu Hsup Ed Hx Hdirp ltac:(by apply Hway) Hfresh) as Htrace.
          exists r. split; [exact Hr|]. split.
          2: { intros st Hst. right. exists i, u, n. split; [exact Hinst|]. split; [by apply Htrace|]. intros Hkf. by apply Hfresh. }
          rewrite Hfs. exists (ch ++ [(c_dest c, n')]). split; [|split].
          * apply set_gen2; [done| |done|done]. intros m' Hm' _. by apply Hasd.
          * intros q k Hq. apply elem_of_app in Hq as [Hq|Hq].
            { destruct (Hch q k Hq) as (c' & Hc' & H). exists c'. split; [set_solver|done]. }
            apply elem_of_list_singleton in Hq. injection Hq as -> ->. exists c. split; [set_solver|]. split; [done|]. split; [done|].
            intros Hnear. rewrite Hdn. destruct Hnear as [Ecwd|(m & Hm & Ha)].
            -- destruct kept_cwd as (dc & Hdc & Hdk & Hdd). destruct Hat as [_ Hat].
               rewrite Ecwd in Hat |- *. rewrite Hat, left_behind_out, Hdc by (intros m' Hm'; by apply (db_cwd_stays _ _ _ _ _ Hdb m' Hm')).
               by rewrite Hdk.
            -- destruct (Hdevs m Hm Ha) as [D1 D2].
               assert (parent_dev t (c_dest c) = dev) as Hpd.
               { unfold parent_dev. rewrite Ed, removelast_snoc. destruct Hdirp as (dd & Hdd & _). rewrite Hdd.
                 destruct (decide (p ∈ ch.*1)) as [Hin'|Hout].
                 - apply elem_of_list_fmap in Hin' as ([q k] & E & Hq). simpl in E. subst q.
                   destruct (Hch _ _ Hq) as (_ & _ & _ & _ & Hnear). assert (dd = k) as -> by (pose proof (P2 _ _ Hq); congruence).
                   apply Hnear. right. exists m. split; [done|]. apply above_spec in Ha as [Ha _]. apply above_spec. split.
                   + eapply under_trans; [apply (under_app p [x])|]. by rewrite <-Ed.
                   + intros E. rewrite Ed, <-E in Ha. apply under_spec in Ha as [r' Er]. rewrite <-app_assoc in Er.
                     symmetry in Er. by apply snoc_ne_self in Er.
                 - apply D2. rewrite <-Hdd. by apply Hap. }
               destruct (t !! c_dest c) as [k|] eqn:Ek; [|done]. destruct (is_kdir (n_kind k)); [by apply D1|done].
          * intros c' u' k Hc' Hi'. apply elem_of_app in Hc' as [Hc'|Hc'].
            { destruct (Hin c' u' k Hc' Hi') as (k' & Hk' & H). exists k'. split; [set_solver|done]. }
            apply elem_of_list_singleton in Hc' as ->. exists n'. split; [set_solver|].
            destruct Hi' as (_ & _ & _ & Est' & Hu' & _). assert (details_of u' k = details_of u n) as Edet by congruence.
            assert (u' = u) as -> by (injection Edet; done). assert (k = n) as -> by congruence. done.
      - cbn [fmap list_fmap]. exists []. split; [by apply placing_init|]. split.
        + intros q n Hq. by apply elem_of_nil in Hq.
        + intros c u n Hc. by apply elem_of_nil in Hc.
      - exists r. split; [done|]. split; [by rewrite (imap_pairs_snd cs3) in Hf|].
        intros st Hst. destruct (Htr st Hst) as (pre & [i c] & post & t & El & Ht & Ht' & _ & Hor). apply imap_snd_elem in El. simpl in El.
        destruct Hor as [-> |Hh].
        + rewrite fmap_app in Ht'. exists (pre.*2 ++ [c]), (post.*2). split; [by rewrite <-app_assoc|]. by left.
        + exists pre.*2, (c :: post.*2). split; [done|]. right. by exists c, (post.*2), t.
    Qed.

    (** *** Every state before the staged entries are cleaned up *)
    Definition before_clean (st : fs) : Prop :=
      (∃ ps, (∀ p, p ∈ ps → p ∈ rp) ∧ st = without f ps) ∨
      (∃ d, (∀ m, m ∈ d → m ∈ mv) ∧ closed d ∧ aside f1 mv aside_of d st) ∨ on_way st.
    Lemma f1_ub (q : path) : under ub q = true → f1 !! q = f !! q.
    Proof.
      intros Hq. unfold f1. apply without_out. intros Hin. destruct (db_remove_stays _ _ _ _ _ Hdb q Hin) as (_ & _ & E & _). congruence.
    Qed.
    Lemma src_not_ub (m : path * path) (q : path) : m ∈ mv → under ub q = true → under m.1 q = false.
    Proof.
      intros Hm Hq. destruct (db_storage _ _ _ _ _ Hdb m Hm) as (H1 & H2 & _).
      destruct (under m.1 q) eqn:U; [|done]. destruct (under_comparable _ _ _ U Hq); congruence.
    Qed.
    Lemma before_storage (st : fs) : before_clean st → ∀ q n, under ub q = true → f !! q = Some n → st !! q = Some n.
    Proof.
      intros [(ps & Hps & ->)|[(d & Hd & Hcl & Has)|(pre & post & El & Hor)]] q n Hq Hn.
      - rewrite without_out; [done|]. intros Hin. destruct (db_remove_stays _ _ _ _ _ Hdb q (Hps q Hin)) as (_ & _ & E & _). congruence.
      - destruct Has as (_ & _ & H). rewrite H, left_behind_out.
        + by rewrite f1_ub.
        + intros m Hm. apply src_not_ub; [by apply Hd|done].
        + intros m Hm. apply (tau_not_src f1 (e_cwd e) mv aside_of Hw1 a_tau m q (Hd m Hm)). rewrite f1_ub by done. by exists n.
      - destruct Hor as [(ch & Hpl & Hch & _)|(c & post' & t & -> & (ch & Hpl & Hch & _) & (i & u & k & Hi & [Hst _] & Htmp))].
        + rewrite (storage_kept pre post st ch El Hpl Hch q Hq); [done|]. left. by exists n.
        + assert (t !! q = Some n) as Ht.
          { rewrite (storage_kept pre (c :: post') t ch El Hpl Hch q Hq); [done|]. left. by exists n. }
          rewrite Hst; [done| |].
          * intros ->. destruct Hi as (_ & _ & _ & _ & _ & _ & Hub & _). congruence.
          * intros ->. destruct (is_kfile (n_kind k)) eqn:Ek; [|done]. rewrite (Htmp eq_refl) in Ht. done.
    Qed.

    (** What is to be found at [p] in the end is there already, or still where it was, or on its way; or it has
        been replaced. *)
    Definition replaced (st : fs) (p : path) : Prop := ∃ c u n, c ∈ sel ∧ is_set c ∧ c_dest c = p ∧
      c_staged c = Some (details_of u n) ∧ f !! u = Some n ∧
      ((∃ k', st !! p = Some k' ∧ n_kind k' = n_kind n) ∨ is_klink (n_kind n) = true ∧ st !! p = None).
    Definition keeps (st : fs) (p : path) (k : node) : Prop :=
      (∃ q, st !! q = Some k ∧ (q = p ∨ ∃ m, m ∈ mv ∧ under m.2 p = true)) ∨ replaced st p.

    Lemma arranged_origin (p : path) (k : node) : arranged f1 mv mv p (Some k) →
      ((∀ m, m ∈ mv → under m.2 p = false) ∧ (∀ m, m ∈ mv → under m.1 p = false) ∧ f1 !! p = Some k) ∨
      ∃ m r, m ∈ mv ∧ p = m.2 ++ r ∧ innermost mv m p ∧ carried f1 mv m.1 r = Some k ∧ f1 !! (m.1 ++ r) = Some k ∧
        ∀ m', m' ∈ mv → above m.1 m'.1 = true → under m'.1 (m.1 ++ r) = false.
    Proof.
      intros [A1 A2]. destruct (innermost_exists mv p) as [Hno|(m & Hin)].
      - left. split; [done|]. specialize (A2 Hno). destruct (left_behind_cases f1 mv p) as [(m & _ & _ & E)|[Hm E]]; [congruence|].
        split; [done|]. congruence.
      - right. pose proof Hin as (Hm & Hu & _). apply under_spec in Hu as [r Er]. exists m, r. specialize (A1 m r Er Hin).
        split; [done|]. split; [done|]. split; [done|]. split; [done|].
        destruct (carried_cases f1 mv m.1 r) as [(m' & _ & _ & _ & E)|[Hm' E]]; [congruence|]. split; [congruence|done].
    Qed.
    Lemma placed_replaced (pre post : list change) (st : fs) (p : path) (ch : list (path * node)) : cs3 = pre ++ post →
      placing f1 mv aside_of ch (moves pre) st →
      (∀ q n, (q, n) ∈ ch → ∃ c, c ∈ pre ∧ is_set c ∧ c_dest c = q ∧ (near q → n_dev n = dev)) →
      (∀ c u n, c ∈ pre → installs c u n → ∃ n', (c_dest c, n') ∈ ch ∧ same_entry n n') →
      p ∈ ch.*1 → ∃ c u n k', c ∈ pre ∧ installs c u n ∧ c_dest c = p ∧ st !! p = Some k' ∧ n_kind k' = n_kind n.
    Proof.
      intros El (_ & _ & P2 & _) Hch Hin Hp. apply elem_of_list_fmap in Hp as ([q n] & -> & Hq). cbn [fst].
      destruct (Hch q n Hq) as (c & Hc & Hs & Ed & _). assert (c ∈ cs3) as Hc3 by (rewrite El; set_solver).
      destruct (entry_alike _ c AL3 Hc3) as [(m & _ & _ & Eo & _)|[(p' & k & _ & _ & Eo & _)|(u & n0 & Hi)]];
        [destruct Hs as [t Hs]; congruence..|].
      destruct (Hin c u n0 Hc Hi) as (n' & Hn' & Hsame). exists c, u, n0, n'. split; [done|]. split; [done|]. split; [done|].
      rewrite Ed in Hn'. split; [by apply P2|]. symmetry. apply Hsame.
    Qed.
    Lemma installs_replaced (c : change) (u : path) (n : node) (st : fs) : installs c u n →
      ((∃ k', st !! c_dest c = Some k' ∧ n_kind k' = n_kind n) ∨ is_klink (n_kind n) = true ∧ st !! c_dest c = None) →
      replaced st (c_dest c).
    Proof.
      intros (Hs & _ & _ & Est & Hu & _ & _ & c0 & Hc0 & Ec) H. exists c0, u, n. split; [done|]. split; [by eapply core_set|].
      apply core_eq in Ec as (E1 & _ & _ & E4). split; [done|]. split; [congruence|]. split; [done|]. exact H.
    Qed.
    Lemma placed_keeps (pre post : list change) (st : fs) (p : path) (k : node) : cs3 = pre ++ post → placed pre st →
      arranged f1 mv mv p (Some k) →
      st !! p = Some k ∨ (∃ m q, m ∈ mv ∧ under m.2 p = true ∧ under (aside_of m) q = true ∧ st !! q = Some k) ∨
      ∃ c u n k', c ∈ pre ∧ installs c u n ∧ c_dest c = p ∧ st !! p = Some k' ∧ n_kind k' = n_kind n.
    Proof.
      intros El (ch & Hpl & Hch & Hin) Ha.
      destruct (decide (p ∈ ch.*1)) as [Hp|Hp].
      { right. right. by apply (placed_replaced pre post st p ch). }
      assert (∀ m', m' ∈ moves pre → m' ∈ mv) as Hsub.
      { intros m' Hm'. rewrite <-(alike_moves cs3 AL3), El, moves_app. set_solver. }
      destruct Hpl as (_ & P1 & _ & P3).
      destruct (arranged_origin p k Ha) as [(Hno & Hns & Hk)|(m & r & Hm & -> & Hinn & Hcar & Hk & Habove)].
      - left. destruct (P3 p Hp) as [_ H].
        { intros m Hm _. apply (tau_not_src f1 (e_cwd e) mv aside_of Hw1 a_tau m p Hm). by exists k. }
        rewrite H; [|intros m Hm; apply Hno; by apply Hsub]. by rewrite left_behind_out.
      - destruct (decide (m ∈ moves pre)) as [Hd|Hd].
        + left. destruct (P3 (m.2 ++ r) Hp) as [H _].
          { intros m' Hm' _. destruct (under (aside_of m') (m.2 ++ r)) eqn:U; [|done].
            destruct (under_comparable _ _ _ U (under_app m.2 r)) as [H|H].
            - by rewrite a_tau_dst in H.
            - by rewrite (dst_not_tau f1 (e_cwd e) mv aside_of a_cwd2 a_tau a_tau_dst) in H. }
          rewrite (H m r eq_refl); [done|]. destruct Hinn as (_ & Hu & Hall). split; [done|]. split; [done|].
          intros m' Hm' Hu'. apply Hall; [by apply Hsub|done].
        + right. left. exists m, (aside_of m ++ r). split; [done|]. split; [apply under_app|]. split; [apply under_app|].
          by rewrite P1.
    Qed.
    Lemma before_keeps (st : fs) (p : path) (k : node) : before_clean st → arranged f1 mv mv p (Some k) → keeps st p k.
    Proof.
      intros [(ps & Hps & ->)|[(d & Hd & Hcl & Has)|(pre & post & El & Hor)]] Ha.
      - left. assert (∀ o, f1 !! o = Some k → without f ps !! o = Some k) as Ho.
        { intros o Ho. apply without_Some in Ho as [Hn Ho]. apply without_Some. split; [|done]. intros Hin. by apply Hn, Hps. }
        destruct (arranged_origin p k Ha) as [(_ & _ & Hk)|(m & r & Hm & -> & _ & _ & Hk & _)].
        + exists p. split; [by apply Ho|by left].
        + exists (m.1 ++ r). split; [by apply Ho|]. right. exists m. split; [done|apply under_app].
      - left. destruct Has as (_ & A1 & A2).
        assert (∀ o, f1 !! o = Some k → ∀ m, m ∈ d → under (aside_of m) o = false) as Ho.
        { intros o Ho m Hm. apply (tau_not_src f1 (e_cwd e) mv aside_of Hw1 a_tau m o (Hd m Hm)). by exists k. }
        destruct (arranged_origin p k Ha) as [(_ & Hns & Hk)|(m & r & Hm & -> & _ & Hcar & Hk & Habove)].
        + exists p. split; [|by left]. rewrite A2 by (by apply Ho). rewrite left_behind_out; [done|]. intros m Hm. apply Hns. by apply Hd.
        + destruct (decide (m ∈ d)) as [Hmd|Hmd].
          * exists (aside_of m ++ r). split; [by rewrite A1|]. right. exists m. split; [done|apply under_app].
          * exists (m.1 ++ r). split; [|right; exists m; split; [done|apply under_app]].
            rewrite A2 by (by apply Ho). rewrite left_behind_out; [done|]. intros m' Hm'.
            destruct (under m'.1 (m.1 ++ r)) eqn:U; [|done]. exfalso.
            destruct (under_comparable _ _ _ U (under_app m.1 r)) as [H|H]; apply under_above in H as [E|H].
            -- apply Hmd. assert (m = m') as ->; [|done]. apply a_src_inj; [done|by apply Hd|done].
            -- apply Hmd. by apply (Hcl m' m).
            -- apply Hmd. assert (m = m') as ->; [|done]. apply a_src_inj; [done|by apply Hd|done].
            -- rewrite (Habove m' (Hd m' Hm') H) in U. done.
      - destruct Hor as [Hpl|(c & post' & t & -> & Hpl & (i & u & n & Hi & [Hst Hat] & Htmp))].
        + destruct (placed_keeps pre post st p k El Hpl Ha) as [H|[(m & q & Hm & Hu & _ & H)|(c & u & n & k' & Hc & Hi & <- & Hk' & Hkk)]].
          * left. exists p. split; [done|by left].
          * left. exists q. split; [done|]. right. by exists m.
          * right. apply (installs_replaced c u n); [done|]. left. by exists k'.
        + assert (∀ q k, t !! q = Some k → q ≠ c_dest c → st !! q = Some k) as Hkeep.
          { intros q k' Hq Hne. rewrite Hst; [done|done|]. intros ->. destruct (is_kfile (n_kind n)) eqn:Ek; [|done].
            rewrite (Htmp eq_refl) in Hq. done. }
          assert (c ∈ cs3) as Hc3 by (rewrite El; set_solver).
          destruct (placed_keeps pre (c :: post') t p k El Hpl Ha) as [H|[(m & q & Hm & Hu & Hq & H)|(c' & u' & n' & k' & Hc' & Hi' & <- & Hk' & Hkk)]].
          * destruct (decide (p = c_dest c)) as [-> |Hne].
            -- destruct Hat as [E|H'].
               ++ left. exists (c_dest c). split; [congruence|by left].
               ++ right. by apply (installs_replaced c u n).
            -- left. exists p. split; [by apply Hkeep|by left].
          * left. exists q. split; [|right; by exists m]. apply Hkeep; [done|]. intros ->.
            rewrite a_tau_arrival in Hq; [done|done|]. eapply arrival_in; [apply AL3|done|]. apply set_op. apply Hi.
          * right. apply (installs_replaced c' u' n'); [done|]. left. exists k'. split; [|done]. apply Hkeep; [done|]. intros E.
            eapply (alike_apart cs3 pre post' c c' AL3 El Hc'); [apply set_op, Hi|apply set_op, Hi'|done].
    Qed.
  End run.

  Definition clean_of (c : change) : list path :=
    match c_op c with OSet _ | ORename => match c_staged c with Some d => [d_path d] | None => [] end | _ => [] end.

  Lemma real_run (cs : list change) : alike cs →
    let o := accept_pass e 2 false cs f in
    (∃ r, o_res o = Ok r) ∧
    (∀ q, under ub q = false → (∀ c, c ∈ sel → is_set c → c_dest c ≠ q) → arranged f1 mv mv q (o_fs o !! q)) ∧
    (∀ c u n, c ∈ sel → is_set c → c_staged c = Some (details_of u n) → f !! u = Some n →
       ∃ n', o_fs o !! c_dest c = Some n' ∧ same_entry n n') ∧
    (∀ q, under ub q = true → (staged_in sel q → o_fs o !! q = None) ∧ (¬ staged_in sel q → o_fs o !! q = f !! q)) ∧
    (∀ st, st ∈ states o →
       ((∀ q n, under ub q = true → f !! q = Some n → st !! q = Some n) ∧ ∀ p k, arranged f1 mv mv p (Some k) → keeps st p k) ∨
       ∀ q, under ub q = false → st !! q = o_fs o !! q).
  Proof.
    intros HL. unfold accept_pass.
    set (l1 := sort_by by_reverse_source cs). assert (alike l1) as HL1 by (by apply alike_sort).
    destruct (removed_all l1 HL1) as (r1 & Hr1 & Er1 & Hf1 & Hw1 & Ht1); [apply sort_by_sorted, by_reverse_source_preorder|].
    rewrite (bind_ok _ _ _ r1) by done. cbn [o_fs o_res o_trace]. rewrite Hf1.
    destruct (moved_aside2 cs HL Hw1) as (Hm1 & Hm2 & Ht2). destruct (put_in_place2 cs HL Hw1 _ Hm2) as (r3 & Hr3 & (ch & Hp & Hch & Hin) & Ht3).
    fold l1 in Hm1, Hm2, Hr3, Hp, Hch, Hin, Ht2, Ht3.
    set (cs2 := imap (assign_tmp e 2) (sort_by by_reverse_source l1)) in *. set (cs3 := sort_by by_destination cs2) in *.
    pose proof (AL3 cs HL) as HL3'. fold l1 cs2 cs3 in HL3'.
    rewrite (bind_ok _ _ _ tt) by done. cbn [o_fs o_res o_trace]. rewrite (bind_ok _ _ _ r3) by done. cbn [o_fs o_res o_trace].
    set (s3 := o_fs (accum (imap (λ (i : nat) (c : change), (i, c)) cs3) (accept_set e 2 false) (o_fs (for_ cs2 (accept_premove false) f1)))) in *.
    assert (r3.2 = mjoin ((λ ic : nat * change, clean_of ic.2) <$> imap (λ i c, (i, c)) cs3)) as Er3.
    { eapply accum_paths; [|exact Hr3]. intros [i c] t r Hic Hr. cbn [snd]. unfold accept_set in Hr. unfold clean_of.
      destruct (c_op c) as [ty| | |er] eqn:Eo.
      - destruct (c_staged c) as [d|]; [|done]. destruct (d_is_file d).
        { apply bind_inv in Hr as ([] & _ & Hr). apply bind_inv in Hr as ([] & _ & Hr). apply bind_inv in Hr as ([] & _ & Hr). by injection Hr as <-. }
        destruct (d_is_symlink d).
        { apply bind_inv in Hr as (tg & _ & Hr). apply bind_inv in Hr as (old & _ & Hr). apply bind_inv in Hr as ([] & _ & Hr).
          apply bind_inv in Hr as ([] & _ & Hr). apply bind_inv in Hr as ([] & _ & Hr). by injection Hr as <-. }
        destruct (d_is_dir d); [|done].
        apply bind_inv in Hr as (b & _ & Hr). apply bind_inv in Hr as ([] & _ & Hr). apply bind_inv in Hr as ([] & _ & Hr). by injection Hr as <-.
      - by injection Hr as <-.
      - destruct (c_tmp c); [|done]. apply bind_inv in Hr as ([] & _ & Hr). by injection Hr as <-.
      - done. }
    assert (∀ p, p ∈ r1.2 ++ r3.2 ↔ ∃ c d, c ∈ sel ∧ c_staged c = Some d ∧ p = d_path d) as Hclean_in.
    { intros p. rewrite elem_of_app, Er1, Er3, !elem_of_list_join. split.
      - intros [(l & Hpl & Hl)|(l & Hpl & Hl)].
        + apply elem_of_list_fmap in Hl as (c & -> & Hc). destruct (alike_in _ c HL1 Hc) as (c0 & Hc0 & E).
          apply core_eq in E as (_ & _ & _ & E4). unfold clean_remove in Hpl. destruct (c_op c); try (by apply elem_of_nil in Hpl).
          destruct (c_staged c) as [d|] eqn:Ed; [|by apply elem_of_nil in Hpl]. apply elem_of_list_singleton in Hpl as ->.
          exists c0, d. split; [done|]. split; [congruence|done].
        + apply elem_of_list_fmap in Hl as ([i c] & -> & Hic). cbn [snd] in Hpl.
          apply elem_of_lookup_imap in Hic as (i' & c' & [= -> ->] & Hi). apply elem_of_list_lookup_2 in Hi.
          destruct (alike_in _ c' HL3' Hi) as (c0 & Hc0 & E). apply core_eq in E as (_ & _ & _ & E4). unfold clean_of in Hpl.
          destruct (c_staged c') as [d|] eqn:Ed; [|destruct (c_op c'); by apply elem_of_nil in Hpl].
          exists c0, d. split; [done|]. split; [congruence|]. destruct (c_op c'); try (by apply elem_of_nil in Hpl); by apply elem_of_list_singleton in Hpl.
      - intros (c & d & Hc & Hst & ->). destruct (c_op c) as [ty| | |er] eqn:Eo.
        2: { left. destruct (alike_of l1 c HL1 Hc) as (c' & Hc' & E). apply core_eq in E as (_ & E2 & _ & E4).
             exists [d_path d]. split; [left|]. apply elem_of_list_fmap. exists c'. split; [|done]. unfold clean_remove. by rewrite E2, Eo, E4, Hst. }
        3: { exfalso. destruct (entry3 c c Hc eq_refl) as [(m & _ & _ & E & _)|[(p & k & _ & _ & E & _)|(u & n & [t E] & _)]]; congruence. }
        all: right; destruct (alike_of cs3 c HL3' Hc) as (c' & Hc' & E); apply core_eq in E as (_ & E2 & _ & E4);
          exists [d_path d]; (split; [left|]); apply elem_of_list_fmap; apply elem_of_list_lookup in Hc' as [i Hi]; exists (i, c');
          (split; [cbn [snd]; unfold clean_of; by rewrite E2, Eo, E4, Hst|]); by apply elem_of_lookup_imap_2 with (f := λ i c, (i, c)). }
    pose proof Hp as (Hw3 & _ & Hp1 & Hp2).
    assert (∀ q, under ub q = true → s3 !! q = f !! q) as Hub3.
    { intros q Hq. eapply (storage_kept cs HL Hw1 cs3 []); [by rewrite app_nil_r|exact Hp|exact Hch|done|by right]. }
    assert (∀ p, p ∈ r1.2 ++ r3.2 → is_Some (s3 !! p) ∧ ∃ r, r ≠ [] ∧ p = ub ++ r) as Hps.
    { intros p Hpi. apply Hclean_in in Hpi as (c & d & Hc & Hst & ->).
      destruct (db_staged _ _ _ _ _ Hdb c d Hc Hst) as (r & n & Hr & Hn & ->). cbn [d_path details_of].
      split; [|by exists r]. rewrite Hub3 by apply under_app. by exists n. }
    assert (one_device s3 ub udev) as Hd3.
    { intros q n Hu Hn. rewrite Hub3 in Hn by done. by apply (Hud q n). }
    pose proof (clean_up_ok e ub udev s3 (r1.2 ++ r3.2) He Hw3 Hd3 Hps) as Hclean.
    destruct (clean_pass e s3 (r1.2 ++ r3.2) He Hw3 (λ p Hp, proj1 (Hps p Hp)) s3 eq_refl) as (Ht4 & Ht4' & Hcl).
    specialize (Hcl tt Hclean). destruct Hcl as [[Hw4 Hcl] Hgone].
    rewrite (bind_ok _ _ _ tt) by done. unfold states. cbn [o_fs o_res o_trace ret_].
    set (s4 := o_fs (clean_up e (r1.2 ++ r3.2) s3)) in *.
    assert (∀ q, under ub q = false → s4 !! q = s3 !! q) as Hout.
    { intros q Hq. destruct (Hcl q) as [|[_ (p & Hpi & Hu)]]; [done|]. exfalso. destruct (Hps p Hpi) as (_ & r & _ & ->).
      rewrite (under_trans _ _ _ (under_app ub r) Hu) in Hq. done. }
    assert (∀ m, m ∈ moves cs3 ↔ m ∈ mv) as Hmv3 by (intros m; by rewrite (alike_moves cs3 HL3')).
    split; [by eexists|]. split; [|split; [|split]].
    4: { assert (∀ st, before_clean cs st → (∀ q n, under ub q = true → f !! q = Some n → st !! q = Some n) ∧ ∀ p k, arranged f1 mv mv p (Some k) → keeps st p k) as Hbc.
      { intros st Hst. split; [exact (before_storage cs HL Hw1 st Hst)|]. intros p k Ha. exact (before_keeps cs HL Hw1 st p k Hst Ha). }
      assert (∀ st, cleaning s3 (r1.2 ++ r3.2) st → ∀ q, under ub q = false → st !! q = s4 !! q) as Hcn.
      { intros st [_ Hst] q Hq. rewrite Hout by done. destruct (Hst q) as [|[_ (p & Hpi & Hu)]]; [done|]. exfalso. destruct (Hps p Hpi) as (_ & r & _ & ->).
        rewrite (under_trans _ _ _ (under_app ub r) Hu) in Hq. done. }
      intros st Hst. rewrite !app_nil_r in Hst. apply elem_of_app in Hst as [Hst|Hst].
      - apply elem_of_app in Hst as [Hst|Hst]; [left; apply Hbc; left; by apply Ht1|].
        apply elem_of_app in Hst as [Hst|Hst]; [left; apply Hbc; right; left; by apply Ht2|].
        apply elem_of_app in Hst as [Hst|Hst]; [left; apply Hbc; right; right; by apply Ht3|].
        right. apply Hcn. rewrite Forall_forall in Ht4. by apply Ht4.
      - apply elem_of_list_singleton in Hst as ->. right. done. }
    - intros q Hq Hnd. rewrite Hout by done. apply (arranged_ext f1 mv mv (moves cs3) mv); [done| |apply Hp2].
      + intros m _. apply Hmv3.
      + intros Hin'. apply elem_of_list_fmap in Hin' as ([q' n'] & -> & Hin'). destruct (Hch _ _ Hin') as (c & Hc & Hs & Ed & _).
        destruct (alike_in _ c HL3' Hc) as (c0 & Hc0 & E). apply (Hnd c0 Hc0); [by eapply core_set|].
        apply core_eq in E as (E1 & _). by rewrite <-E1.
      + intros m Hm Hn. exfalso. apply Hn. by apply Hmv3.
    - intros c u n Hc Hs Hst Hu.
      destruct (alike_of cs3 c HL3' Hc) as (c' & Hc' & E).
      assert (installs c' u n) as Hi.
      { destruct (entry3 c' c Hc E) as [(m & _ & _ & Eo & _)|[(p & k & _ & _ & Eo & _)|(u1 & n1 & Hi)]].
        1, 2: destruct Hs as [t Hs]; apply core_eq in E as (_ & E2 & _); congruence.
        pose proof Hi as (_ & _ & _ & Est1 & Hu1 & _). apply core_eq in E as (_ & _ & _ & E4).
        assert (details_of u1 n1 = details_of u n) as Edet by congruence.
        assert (u1 = u) as -> by (injection Edet; done). assert (n1 = n) as -> by congruence. done. }
      destruct (Hin c' u n Hc' Hi) as (n' & Hn' & Hsame). exists n'. split; [|done].
      pose proof Hi as (_ & _ & _ & _ & _ & _ & Hub & _). apply core_eq in E as (E1 & _). rewrite E1 in Hn', Hub.
      rewrite Hout by done. by apply Hp1.
    - intros q Hq. split.
      + intros (c & d & Hc & Hst & Hu). destruct (s4 !! q) as [x|] eqn:E; [|done]. exfalso.
        apply under_spec in Hu as [r ->]. destruct (wf_is_Some_prefix s4 (d_path d) r x Hw4 E) as [y Hy].
        rewrite (Hgone (d_path d)) in Hy; [done|]. apply Hclean_in. by exists c, d.
      + intros Hn. rewrite <-(Hub3 q Hq). destruct (Hcl q) as [|[_ (p & Hpi & Hu)]]; [done|]. exfalso. apply Hn.
        apply Hclean_in in Hpi as (c & d & Hc & Hst & ->). by exists c, d.
  Qed.
End accept.

(** ** The theorem: any mixture of renames, installations and removals *)
Theorem accept_doable (e : env) (f : fs) (ub : path) (dev udev : N) (inc : bool) (pats : list string) (sel : list change) :
  wf_tree f → env_ok e → selected e f ub inc pats = Ok sel → sel ≠ [] → doable e f ub dev sel → one_device f ub udev →
  let o := accept e ub inc pats f in
  is_ok (o_res o) = true ∧
  (∀ q, under ub q = false → (∀ c, c ∈ sel → is_set c → c_dest c ≠ q) →
     arranged (without f (removals sel)) (moves sel) (moves sel) q (o_fs o !! q)) ∧
  (∀ c u n, c ∈ sel → is_set c → c_staged c = Some (details_of u n) → f !! u = Some n →
     ∃ n', o_fs o !! c_dest c = Some n' ∧ same_entry n n') ∧
  (∀ q, under ub q = true → (staged_in sel q → o_fs o !! q = None) ∧ (¬ staged_in sel q → o_fs o !! q = f !! q)) ∧
  (∀ st, st ∈ states o →
     ((∀ q n, under ub q = true → f !! q = Some n → st !! q = Some n) ∧
      ∀ p k, arranged (without f (removals sel)) (moves sel) (moves sel) p (Some k) → keeps f sel st p k) ∨
     ∀ q, under ub q = false → st !! q = o_fs o !! q).
Proof.
  intros Hwf He Hsel Hne Hdb Hud. cbv zeta.
  unfold selected in Hsel. destruct (changes e f ub inc) as [all|] eqn:Eall; [|done]. cbn [rbind] in Hsel. injection Hsel as Hsel.
  unfold accept. rewrite (bind_get_ok _ _ f all) by done. rewrite Hsel.
  destruct sel as [|c0 sel0]; [done|]. set (sel := c0 :: sel0) in *.
  destruct (dry_run2 e f ub dev udev sel Hwf He Hdb Hud sel) as (r1 & Hr1 & HL); [unfold alike; reflexivity|].
  rewrite (bind_ok _ _ _ r1) by done. cbn [o_res o_fs].
  pose proof (pure_pretend e 0 sel f) as [_ Hpf]. rewrite Hpf.
  destruct (real_run e f ub dev udev sel Hwf He Hdb Hud r1.2 HL) as ((r2 & Hr2) & H1 & H2 & H3 & H4).
  pose proof (pure_pretend e 0 sel f) as [Hpt _].
  rewrite (bind_ok _ _ _ r2) by done. unfold states. cbn [o_res o_fs o_trace ret_]. rewrite Hpt, app_nil_r. cbn [app]. done.
Qed.
