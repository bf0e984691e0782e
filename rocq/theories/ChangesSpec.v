(** * Exactly which changes are listed (redirect-free sandboxes). *)
From Verif Require Export ChangesFacts.

Lemma rmap_all {A B : Type} (g : A → res B) (h : A → B) (l : list A) :
  (∀ x, x ∈ l → g x = Ok (h x)) → rmap g l = Ok (h <$> l).
Proof.
  induction l as [|x l IH]; intros H; [done|]. simpl. rewrite (H x) by left. simpl.
  rewrite IH; [done|]. intros y Hy. apply H. by right.
Qed.

(** The host object at [m ++ s] is deleted or replaced by the staged entry [n]. *)
Definition removal_root (f : fs) (m s : path) (n : node) : Prop :=
  ∃ k, f !! (m ++ s) = Some k ∧
       (opaque n = true ∨ whiteout n = true ∨ (is_kdir (n_kind n) = false ∧ n_kind k = KDir)).

Definition supported (n : node) : bool :=
  match n_kind n with KFile _ | KDir | KLink _ => true | _ => false end.

(** A listed removal: some host path at or below a deleted or replaced object. *)
Definition lists_remove (f : fs) (ub m s : path) (n : node) (c : change) : Prop :=
  removal_root f m s n ∧ ∃ q k, under (m ++ s) q = true ∧ f !! q = Some k ∧
    c = Change q ORemove (Some (details_of q k))
          (if decide (q = m ++ s) then Some (details_of (upper_dir ub m ++ s) n) else None) None.

Definition set_type_of (f : fs) (ub m s : path) : set_type :=
  match source_details f (m ++ s) with
  | Some _ => if has_opaque_ancestor f (upper_dir ub m ++ s) then Create else Modify
  | None => Create
  end.

(** A listed creation or modification. *)
Definition lists_set (f : fs) (ub m s : path) (n : node) (c : change) : Prop :=
  whiteout n = false ∧ supported n = true ∧
  c = Change (m ++ s) (OSet (set_type_of f ub m s)) (source_details f (m ++ s))
        (Some (details_of (upper_dir ub m ++ s) n)) None.

Definition lists_error (f : fs) (ub m s : path) (n : node) (c : change) : Prop :=
  whiteout n = false ∧ supported n = false ∧
  c = Change (m ++ s) (OError UnsupportedFileType) (source_details f (m ++ s))
        (Some (details_of (upper_dir ub m ++ s) n)) None.

Definition lists (f : fs) (ub : path) (ms : list path) (c : change) : Prop :=
  ∃ m s n, m ∈ ms ∧ staged_at f ub m s n ∧
    (lists_remove f ub m s n c ∨ lists_set f ub m s n c ∨ lists_error f ub m s n c).

Section sandbox.
  Context (f : fs) (ub : path) (ms : list path) (Hok : sandbox_ok f ub ms).

  Let Hst : storage_ok f ub ms := sb_storage _ _ _ Hok.
  Let Hwf : wf_tree f := so_wf _ _ _ Hst.

  Definition walk_change (p : path) (ud : details) (q : path) : change :=
    Change q ORemove (match f !! q with Some k => Some (details_of q k) | None => None end)
      (if decide (q = p) then Some ud else None) None.

  #[local] Instance walk_change_inj p ud : Inj (=) (=) (walk_change p ud).
  Proof. intros q q' E. by apply (f_equal c_dest) in E. Qed.

  Lemma remove_walk_ok e p ud : env_ok e → is_dir_at f p →
    remove_walk e f p ud = Ok (walk_change p ud <$> e_ord e (walkdir f p)).
  Proof.
    intros He Hd. unfold remove_walk. apply rmap_all. intros q Hq. rewrite (He _) in Hq.
    apply elem_of_walkdir in Hq as [Hu [k Hk]]; [|done|done].
    rewrite (from_path_dom f q k) by done. simpl. unfold walk_change. by rewrite Hk.
  Qed.

  Lemma remove_changes_spec e m s n : env_ok e → m ∈ ms → staged_at f ub m s n →
    ∃ rs, remove_changes e f [] (entry_for f ub m s n) = Ok rs ∧ NoDup rs ∧
          ∀ c, c ∈ rs ↔ lists_remove f ub m s n c.
  Proof.
    intros He Hm Hs. pose proof Hs as [Hne Hn].
    pose proof (sb_entry _ _ _ Hok m s n Hm Hs) as Heo. pose proof (utf8_staged f ub ms Hok m s n Hn) as Hutf.
    pose proof (sb_host _ _ _ Hok m s n Hm Hs) as Hho.
    unfold remove_changes, entry_for. cbn [ue_details ue_source ue_source_details].
    rewrite is_opaque_dom, is_removed_dom, d_is_dir_of by done.
    unfold if_exists, source_details.
    destruct (f !! (m ++ s)) as [k|] eqn:Ek.
    2: { destruct (exists_ f (m ++ s)) eqn:Ee.
         { destruct (exists_host f ub ms Hok m s n Hm Hs Ee) as [k Hk]. congruence. }
         exists []. split; [by destruct (_ || _)|]. split; [constructor|]. intros c. split; [intros Hc; by apply elem_of_nil in Hc|].
         intros ((k & Hk & _) & _). congruence. }
    destruct (is_klink (n_kind k)) eqn:El.
    - (* the host object is a symlink *)
      destruct (n_kind k) as [| |t| | | |] eqn:Ekk; try done.
      assert (is_kdir (n_kind n) = false) as Hnd.
      { destruct (is_kdir (n_kind n)) eqn:E; [|done]. apply is_kdir_true in E.
        by destruct (ho_dir_link _ _ _ _ _ _ Hho t k E Ek). }
      assert (opaque n = false) as Hno by (unfold opaque; by rewrite Hnd).
      assert (is_dir f (m ++ s) = false) as Hisd.
      { unfold is_dir. destruct (stat f (m ++ s)) as [x|] eqn:Est; [|done].
        destruct (is_kdir (n_kind x)) eqn:Ex; [|done]. apply is_kdir_true in Ex.
        destruct (ho_file_link _ _ _ _ _ _ Hho t k Ek Ekk). by exists x. }
      assert (∀ q, under (m ++ s) q = true → is_Some (f !! q) → q = m ++ s) as Hleaf.
      { intros q Hu [x Hx]. apply under_spec in Hu as [r ->]. destruct r as [|c r]; [by rewrite app_nil_r|].
        assert (below f (m ++ s) = []) as Hb by (eapply wf_nondir_below; [done|exact Ek|by rewrite Ekk]).
        rewrite below_nil in Hb. by rewrite Hb in Hx. }
      rewrite Hno, Hnd. simpl.
      destruct (whiteout n) eqn:Ew; simpl.
      + destruct (ho_whiteout_link _ _ _ _ _ _ Hho t k Ew Ek Ekk) as (x & Hx & Hxk).
        assert (exists_ f (m ++ s) = true) as Hex by (unfold exists_; by rewrite Hx).
        rewrite Hex. simpl. 
        rewrite Hisd. eexists. split; [done|]. split; [apply NoDup_singleton|]. intros c. rewrite elem_of_list_singleton. split.
        * intros ->. split; [exists k; split; [done|]; by right; left|].
          exists (m ++ s), k. split; [apply under_refl|]. split; [done|]. by rewrite decide_True.
        * intros (_ & q & k' & Hu & Hk' & ->). assert (q = m ++ s) as -> by (apply Hleaf; [done|by eexists]).
          rewrite decide_True by done. assert (k' = k) as -> by congruence. done.
      + assert (match (if exists_ f (m ++ s) then Some (m ++ s) else None) with
                | Some sp => is_dir f sp | None => false end = false) as ->.
        { by destruct (exists_ f (m ++ s)). }
        eexists. split; [done|]. split; [constructor|]. intros c. split; [intros Hc; by apply elem_of_nil in Hc|].
        intros ((k' & Hk' & Hr) & _). assert (k' = k) as -> by congruence.
        destruct Hr as [?|[?|[_ ?]]]; congruence.
    - destruct (exists_nonlink f ub ms Hok m s k Ek El) as [Hex Hisd].
      rewrite Hex, Hisd.
      destruct (opaque n || whiteout n || negb (is_kdir (n_kind n)) && is_kdir (n_kind k)) eqn:Econd.
      + assert (removal_root f m s n) as Hroot.
        { exists k. split; [done|]. rewrite !orb_true_iff, andb_true_iff, negb_true_iff in Econd.
          destruct Econd as [[H|H]|[H1 H2]]; [by left|by right; left|]. right. right.
          split; [done|]. by apply is_kdir_true. }
        rewrite decide_False by (intros H; by apply elem_of_nil in H).
        destruct (is_kdir (n_kind k)) eqn:Ekd.
        * apply is_kdir_true in Ekd.
          rewrite remove_walk_ok by (done || by exists k).
          eexists. split; [done|]. split.
          { apply NoDup_fmap; [apply _|]. rewrite (He _). by apply NoDup_walkdir; [|exists k]. }
          intros c. rewrite elem_of_list_fmap. split.
          -- intros (q & -> & Hq). rewrite (He _) in Hq.
             apply elem_of_walkdir in Hq as [Hu [k' Hk']]; [|done|by exists k].
             split; [done|]. exists q, k'. split; [done|]. split; [done|].
             unfold walk_change. by rewrite Hk'.
          -- intros (_ & q & k' & Hu & Hk' & ->). exists q. split.
             ++ unfold walk_change. by rewrite Hk'.
             ++ rewrite (He _). apply elem_of_walkdir; [done|by exists k|]. split; [done|by eexists].
        * eexists. split; [done|]. split; [apply NoDup_singleton|]. intros c. rewrite elem_of_list_singleton. split.
          -- intros ->. split; [done|]. exists (m ++ s), k. split; [apply under_refl|]. split; [done|].
             by rewrite decide_True.
          -- intros (_ & q & k' & Hu & Hk' & ->).
             assert (q = m ++ s) as ->.
             { apply under_spec in Hu as [r ->]. destruct r as [|c r]; [by rewrite app_nil_r|].
               assert (below f (m ++ s) = []) as Hb.
               { eapply wf_nondir_below; [done|exact Ek|]. intros E. by rewrite E in Ekd. }
               rewrite below_nil in Hb. by rewrite Hb in Hk'. }
             rewrite decide_True by done. by assert (k' = k) as -> by congruence.
      + eexists. split; [done|]. split; [constructor|]. intros c. split; [intros Hc; by apply elem_of_nil in Hc|].
        intros ((k' & Hk' & Hr) & _). assert (k' = k) as -> by congruence. exfalso.
        rewrite !orb_false_iff, andb_false_iff, negb_false_iff in Econd.
        destruct Econd as [[E1 E2] E3]. destruct Hr as [?|[?|[H1 H2]]]; [congruence|congruence|].
        destruct E3 as [E3|E3]; [congruence|]. by rewrite H2 in E3.
  Qed.

  Lemma set_changes_spec m s n : m ∈ ms → staged_at f ub m s n →
    ∃ ss, set_changes f (entry_for f ub m s n) (details_of (upper_dir ub m ++ s) n) = Ok ss ∧ NoDup ss ∧
          ∀ c, c ∈ ss ↔ lists_set f ub m s n c ∨ lists_error f ub m s n c.
  Proof.
    intros Hm Hs. pose proof Hs as [Hne Hn].
    pose proof (sb_entry _ _ _ Hok m s n Hm Hs) as Heo. pose proof (utf8_staged f ub ms Hok m s n Hn) as Hutf.
    unfold set_changes, entry_for. cbn [ue_details ue_source ue_source_details ue_lower ue_upper].
    rewrite is_removed_dom by done. destruct (whiteout n) eqn:Ew.
    { exists []. split; [done|]. split; [constructor|]. intros c. split; [intros Hc; by apply elem_of_nil in Hc|].
      intros [(H & _)|(H & _)]; congruence. }
    rewrite is_renamed_dom by done. simpl. rewrite mode_type.
    assert (negb (N.eqb (kind_type (n_kind n)) S_IFREG) && negb (N.eqb (kind_type (n_kind n)) S_IFDIR)
            && negb (N.eqb (kind_type (n_kind n)) S_IFLNK) = negb (supported n)) as ->
      by (unfold supported; by destruct (n_kind n)).
    destruct (supported n) eqn:Es; simpl; (eexists; split; [done|]); (split; [apply NoDup_singleton|]); intros c;
      rewrite elem_of_list_singleton; unfold lists_set, lists_error.
    - split; [intros ->; by left|]. intros [(_ & _ & ->)|(_ & ? & _)]; [done|congruence].
    - split; [intros ->; by right|]. intros [(_ & ? & _)|(_ & _ & ->)]; [congruence|done].
  Qed.

  Lemma entry_changes_spec e m s n : env_ok e → m ∈ ms → staged_at f ub m s n →
    ∃ cs, entry_changes e f [] (entry_for f ub m s n) = Ok cs ∧ NoDup cs ∧
          ∀ c, c ∈ cs ↔ lists_remove f ub m s n c ∨ lists_set f ub m s n c ∨ lists_error f ub m s n c.
  Proof.
    intros He Hm Hs. unfold entry_changes. cbn [ue_upper entry_for].
    rewrite (from_path_dom f _ n) by (done || apply Hs). simpl.
    destruct (remove_changes_spec e m s n He Hm Hs) as (rs & -> & HNr & Hrs). simpl.
    destruct (set_changes_spec m s n Hm Hs) as (ss & -> & HNs & Hss). simpl.
    eexists. split; [done|]. split.
    { apply NoDup_app. split; [done|]. split; [|done]. intros c Hc Hc'.
      apply Hrs in Hc as (_ & q & k & _ & _ & ->). apply Hss in Hc' as [(_ & _ & H)|(_ & _ & H)]; done. }
    intros c. rewrite elem_of_app, Hrs, Hss. done.
  Qed.

  Lemma no_renamed_paths es : 
    (∀ x, x ∈ es → ∃ m s n, m ∈ ms ∧ staged_at f ub m s n ∧ x = entry_for f ub m s n) →
    renamed_paths f es = Ok [].
  Proof.
    induction es as [|x es IH]; intros H; [done|]. simpl.
    destruct (H x ltac:(left)) as (m & s & n & Hm & Hs & ->). cbn [ue_details entry_for].
    rewrite is_renamed_dom; [|done|apply Hs|apply (utf8_staged f ub ms Hok m s n), Hs|by eapply (sb_entry _ _ _ Hok)]. simpl.
    rewrite IH; [done|]. intros y Hy. apply H. by right.
  Qed.

  Lemma changes_of_entries e es : env_ok e →
    (∀ x, x ∈ es → ∃ m s n, m ∈ ms ∧ staged_at f ub m s n ∧ x = entry_for f ub m s n) →
    ∃ css, rmap (entry_changes e f []) es = Ok css ∧
      ∀ c, c ∈ mjoin css ↔ ∃ m s n, m ∈ ms ∧ staged_at f ub m s n ∧ entry_for f ub m s n ∈ es ∧
        (lists_remove f ub m s n c ∨ lists_set f ub m s n c ∨ lists_error f ub m s n c).
  Proof.
    intros He. induction es as [|x es IH]; intros H.
    { exists []. split; [done|]. intros c. split; [intros Hc; by apply elem_of_nil in Hc|].
      intros (m & s & n & _ & _ & Hx & _). by apply elem_of_nil in Hx. }
    destruct IH as (css & Hcss & Hspec); [intros y Hy; apply H; by right|].
    destruct (H x ltac:(left)) as (m & s & n & Hm & Hs & ->).
    destruct (entry_changes_spec e m s n He Hm Hs) as (cs & Hcs & _ & Hc).
    exists (cs :: css). split; [simpl; by rewrite Hcs, Hcss|].
    intros c. change (mjoin (cs :: css)) with (cs ++ mjoin css). rewrite elem_of_app, Hc, Hspec. split.
    - intros [Hl|(m' & s' & n' & H1 & H2 & H3 & H4)].
      + exists m, s, n. split; [done|]. split; [done|]. split; [left|done].
      + exists m', s', n'. split; [done|]. split; [done|]. split; [by right|done].
    - intros (m' & s' & n' & H1 & H2 & H3 & H4). apply elem_of_cons in H3 as [E|H3].
      + left. assert (upper_dir ub m' ++ s' = upper_dir ub m ++ s) as E'
          by (by apply (f_equal ue_upper) in E).
        apply (upper_dir_inj f ub ms Hok) in E' as [-> ->]; [|done|done].
        destruct Hs as [_ Hs], H2 as [_ H2]. by assert (n' = n) as -> by congruence.
      + right. by exists m', s', n'.
  Qed.

  (** Soundness: everything listed is there (whatever the ignore rules). *)
  Lemma changes_sound e inc l : env_ok e → changes e f ub inc = Ok l → ∀ c, c ∈ l → lists f ub ms c.
  Proof.
    intros He H c Hc. unfold changes in H.
    destruct (upper_entries e f ub inc) as [es|] eqn:Ees; [|done]. simpl in H.
    pose proof (entries_sound f ub ms Hok e inc es He Ees) as Hes.
    rewrite no_renamed_paths in H by done. simpl in H.
    destruct (changes_of_entries e es He Hes) as (css & Hcss & Hspec). rewrite Hcss in H. simpl in H.
    injection H as <-. apply Hspec in Hc as (m & s & n & H1 & H2 & _ & H3). by exists m, s, n.
  Qed.

  (** Completeness: with ignore rules off, listing succeeds and lists exactly that. *)
  Lemma changes_complete e : env_ok e →
    ∃ l, changes e f ub true = Ok l ∧ ∀ c, c ∈ l ↔ lists f ub ms c.
  Proof.
    intros He. unfold changes.
    destruct (entries_complete f ub ms Hok e He) as (es & -> & _ & Hes). simpl.
    rewrite no_renamed_paths by (intros x; apply Hes). simpl.
    destruct (changes_of_entries e es He ltac:(intros x; apply Hes)) as (css & -> & Hspec). simpl.
    eexists. split; [done|]. intros c. rewrite Hspec. split.
    - intros (m & s & n & H1 & H2 & _ & H3). by exists m, s, n.
    - intros (m & s & n & H1 & H2 & H3). exists m, s, n. split; [done|]. split; [done|]. split; [|done].
      apply Hes. by exists m, s, n.
  Qed.
End sandbox.
