(** * Facts about the filesystem model *)
From Verif Require Export FS.

Definition is_dir_at (f : fs) (p : path) : Prop := ∃ n, f !! p = Some n ∧ n_kind n = KDir.

(** Every strict ancestor is a real directory and every component is a legal name. *)
Definition dirpath (f : fs) (p : path) : Prop :=
  ∀ q c r, p = q ++ c :: r → is_dir_at f q ∧ comp_ok c.

(** No strict ancestor is a symlink and every component is a legal name. *)
Definition nolink (f : fs) (p : path) : Prop :=
  ∀ q c r, p = q ++ c :: r →
    comp_ok c ∧ ∀ n, f !! q = Some n → is_klink (n_kind n) = false.

Lemma is_dir_at_dec f p : is_dir_at f p ∨ ¬ is_dir_at f p.
Proof.
  unfold is_dir_at. destruct (f !! p) as [n|]; [|right; intros (? & ? & ?); congruence].
  destruct (n_kind n) eqn:E; [|left; eauto|..]; right; intros (? & ? & ?); congruence.
Qed.

Lemma is_kdir_true k : is_kdir k = true ↔ k = KDir.
Proof. destruct k; simpl; split; congruence. Qed.

Lemma dirpath_nolink f p : dirpath f p → nolink f p.
Proof.
  intros H q c r E. destruct (H q c r E) as [(n & Hn & Hk) Hc]. split; [done|].
  intros n' Hn'. rewrite Hn in Hn'. injection Hn' as <-. by rewrite Hk.
Qed.

(** ** Unfolding of [walk] *)
Lemma walk_nil n f follow cur : walk n f follow cur [] = Ok cur.
Proof. by destruct n. Qed.

Lemma walk_cons n f follow cur c rest :
  walk n f follow cur (c :: rest) =
    (if (String.eqb c "" || String.eqb c ".") then walk n f follow cur rest
     else if String.eqb c ".." then walk n f follow (removelast cur) rest
     else
       match f !! cur with
       | None => Err ENOENT
       | Some d =>
           if is_kdir (n_kind d) then
             match f !! (cur ++ [c]) with
             | None => match rest with [] => Ok (cur ++ [c]) | _ :: _ => Err ENOENT end
             | Some nd =>
                 match n_kind nd with
                 | KLink t =>
                     match rest, follow with
                     | [], false => Ok (cur ++ [c])
                     | _, _ =>
                         match n with
                         | O => Err ELOOP
                         | S n' =>
                             walk n' f follow (if is_abs t then [] else cur)
                               (split_on "/" t ++ rest)
                         end
                     end
                 | _ => walk n f follow (cur ++ [c]) rest
                 end
             end
           else Err ENOTDIR
       end).
Proof. by destruct n. Qed.

Lemma comp_ok_tests c : comp_ok c →
  (String.eqb c "" || String.eqb c ".") = false ∧ String.eqb c ".." = false.
Proof.
  intros (H1 & H2 & H3 & _).
  apply String.eqb_neq in H1, H2, H3. by rewrite H1, H2, H3.
Qed.

Lemma walk_dirpath n f follow cur todo :
  (∀ q c r, todo = q ++ c :: r → is_dir_at f (cur ++ q) ∧ comp_ok c) →
  (follow = true → ∀ nd, todo ≠ [] → f !! (cur ++ todo) = Some nd → is_klink (n_kind nd) = false) →
  walk n f follow cur todo = Ok (cur ++ todo).
Proof.
  revert cur. induction todo as [|c rest IH]; intros cur H Hf.
  - by rewrite walk_nil, app_nil_r.
  - rewrite walk_cons. destruct (H [] c rest eq_refl) as [(d & Hd & Hk) Hc].
    rewrite app_nil_r in Hd. destruct (comp_ok_tests c Hc) as [-> ->]. rewrite Hd, Hk. simpl.
    assert (walk n f follow (cur ++ [c]) rest = Ok (cur ++ c :: rest)) as Hgo.
    { rewrite IH; [by rewrite <-app_assoc| |].
      - intros q c' r ->. destruct (H (c :: q) c' r eq_refl) as [H1 H2].
        by rewrite <-app_assoc.
      - intros Hfo nd Hne Hnd. rewrite <-app_assoc in Hnd. by apply (Hf Hfo nd). }
    destruct (f !! (cur ++ [c])) as [nd|] eqn:E.
    + destruct (n_kind nd) eqn:Ek; try done.
      destruct rest as [|c' rest].
      * destruct follow; [|done].
        specialize (Hf eq_refl nd ltac:(done) E). by rewrite Ek in Hf.
      * destruct (H [c] c' rest eq_refl) as [(d' & Hd' & Hk') _].
        rewrite E in Hd'. injection Hd' as <-. congruence.
    + destruct rest as [|c' rest]; [done|].
      destruct (H [c] c' rest eq_refl) as [(d' & Hd' & Hk') _]. congruence.
Qed.

Lemma lookup_l_dirpath f p : dirpath f p → lookup_l f p = Ok p.
Proof. intros H. unfold lookup_l. rewrite walk_dirpath; [done|exact H|done]. Qed.

Lemma lookup_f_dirpath f p :
  dirpath f p → (∀ n, f !! p = Some n → is_klink (n_kind n) = false) → lookup_f f p = Ok p.
Proof.
  intros H Hl. unfold lookup_f. rewrite walk_dirpath; [done|exact H|].
  intros _ nd _ Hnd. by apply Hl.
Qed.

(** Without symlinked ancestors a lookup yields the path itself or fails. *)
Lemma walk_nolink n f follow cur todo :
  (∀ q c r, todo = q ++ c :: r →
     comp_ok c ∧ (q ≠ [] → ∀ nd, f !! (cur ++ q) = Some nd → is_klink (n_kind nd) = false)) →
  (follow = true → ∀ nd, todo ≠ [] → f !! (cur ++ todo) = Some nd → is_klink (n_kind nd) = false) →
  walk n f follow cur todo = Ok (cur ++ todo) ∨ ∃ e, walk n f follow cur todo = Err e.
Proof.
  revert cur. induction todo as [|c rest IH]; intros cur H Hf.
  - left. by rewrite walk_nil, app_nil_r.
  - rewrite walk_cons. destruct (H [] c rest eq_refl) as [Hc _].
    destruct (comp_ok_tests c Hc) as [-> ->].
    destruct (f !! cur) as [d|]; [|eauto]. destruct (is_kdir (n_kind d)); [|eauto].
    assert (walk n f follow (cur ++ [c]) rest = Ok (cur ++ c :: rest) ∨
            ∃ e, walk n f follow (cur ++ [c]) rest = Err e) as Hgo.
    { destruct (IH (cur ++ [c])) as [->|?]; [| | |by right].
      - intros q c' r ->. destruct (H (c :: q) c' r eq_refl) as [H1 H2]. split; [done|].
        intros Hq nd Hnd. apply (H2 ltac:(done) nd). by rewrite <-app_assoc in Hnd.
      - intros Hfo nd Hne Hnd. rewrite <-app_assoc in Hnd. by apply (Hf Hfo nd).
      - left. by rewrite <-app_assoc. }
    destruct (f !! (cur ++ [c])) as [nd|] eqn:E.
    + destruct (n_kind nd) eqn:Ek; try done.
      destruct rest as [|c' rest].
      * destruct follow; [|eauto].
        specialize (Hf eq_refl nd ltac:(done) E). by rewrite Ek in Hf.
      * destruct (H [c] c' rest eq_refl) as [_ Hl].
        specialize (Hl ltac:(done) nd E). by rewrite Ek in Hl.
    + destruct rest; eauto.
Qed.

Lemma lookup_l_nolink f p : nolink f p → lookup_l f p = Ok p ∨ ∃ e, lookup_l f p = Err e.
Proof.
  intros H. apply walk_nolink; [|done].
  intros q c r ->. destruct (H q c r eq_refl) as [H1 H2]. split; [done|]. intros _. apply H2.
Qed.

Lemma lookup_f_nolink f p :
  nolink f p → (∀ n, f !! p = Some n → is_klink (n_kind n) = false) →
  lookup_f f p = Ok p ∨ ∃ e, lookup_f f p = Err e.
Proof.
  intros H Hl. apply walk_nolink.
  - intros q c r ->. destruct (H q c r eq_refl) as [H1 H2]. split; [done|]. intros _. apply H2.
  - intros _ nd _ Hnd. by apply Hl.
Qed.

(** ** Well-formedness *)
Lemma wf_dirpath f p n : wf_tree f → f !! p = Some n → dirpath f p.
Proof.
  intros Hwf. revert n. induction p as [|x p IH] using rev_ind; intros n Hn q c r E.
  - by destruct q.
  - destruct (wf_parent f Hwf _ _ _ Hn) as (d & Hd & Hk).
    destruct (path_snoc_case r) as [->|(r' & c' & ->)].
    + apply app_inj_tail in E as [-> ->]. split; [by exists d|].
      by eapply wf_comp.
    + change (q ++ c :: r' ++ [c']) with (q ++ (c :: r') ++ [c']) in E.
      rewrite app_assoc in E. apply app_inj_tail in E as [-> ->]. by apply (IH d Hd q c r').
Qed.

Lemma dirpath_snoc f p c : wf_tree f → is_dir_at f p → comp_ok c → dirpath f (p ++ [c]).
Proof.
  intros Hwf Hd Hc q c' r E. destruct (path_snoc_case r) as [->|(r' & x & ->)].
  - apply app_inj_tail in E as [-> ->]. done.
  - change (q ++ c' :: r' ++ [x]) with (q ++ (c' :: r') ++ [x]) in E.
    rewrite app_assoc in E. apply app_inj_tail in E as [-> ->].
    destruct Hd as (n & Hn & _). by eapply wf_dirpath.
Qed.

Lemma dirpath_snoc_inv f p c : dirpath f (p ++ [c]) → is_dir_at f p ∧ comp_ok c ∧ dirpath f p.
Proof.
  intros H. split; [|split].
  - by apply (H p c []).
  - by apply (H p c []).
  - intros q c' r ->. apply (H q c' (r ++ [c])). by rewrite <-app_assoc.
Qed.

Lemma dirpath_app f p s : dirpath f (p ++ s) → dirpath f p.
Proof. intros H q c r ->. apply (H q c (r ++ s)). by rewrite <-app_assoc. Qed.

Lemma wf_prefix f p s n : wf_tree f → f !! (p ++ s) = Some n → s ≠ [] → is_dir_at f p.
Proof.
  intros Hwf Hn Hs. destruct s as [|c r]; [done|].
  by apply (wf_dirpath f _ _ Hwf Hn p c r).
Qed.

Lemma wf_is_Some_prefix f p s n : wf_tree f → f !! (p ++ s) = Some n → is_Some (f !! p).
Proof.
  intros Hwf Hn. destruct s as [|c r].
  - rewrite app_nil_r in Hn. by eexists.
  - destruct (wf_prefix f p (c :: r) n Hwf Hn ltac:(done)) as (d & Hd & _). by eexists.
Qed.

Lemma is_dir_at_dirpath f p : wf_tree f → is_dir_at f p → dirpath f p.
Proof. intros Hwf (n & Hn & _). by eapply wf_dirpath. Qed.

Lemma lstat_dom f p n : wf_tree f → f !! p = Some n → lstat f p = Ok n.
Proof.
  intros Hwf Hn. unfold lstat. rewrite lookup_l_dirpath by (by eapply wf_dirpath).
  simpl. by rewrite Hn.
Qed.

Lemma lstat_dirpath f p : dirpath f p →
  lstat f p = match f !! p with Some n => Ok n | None => Err ENOENT end.
Proof. intros H. unfold lstat. by rewrite lookup_l_dirpath. Qed.

Lemma stat_dirpath f p : dirpath f p →
  (∀ n, f !! p = Some n → is_klink (n_kind n) = false) →
  stat f p = match f !! p with Some n => Ok n | None => Err ENOENT end.
Proof. intros H Hl. unfold stat. by rewrite lookup_f_dirpath. Qed.

Lemma stat_dom f p n : wf_tree f → f !! p = Some n → is_klink (n_kind n) = false → stat f p = Ok n.
Proof.
  intros Hwf Hn Hl. rewrite stat_dirpath; [by rewrite Hn| |].
  - by eapply wf_dirpath.
  - intros n' Hn'. congruence.
Qed.

(** A missing parent chain: the path does not exist. *)
Lemma walk_none n f follow p : wf_tree f → (∀ c, c ∈ p → comp_ok c) → f !! p = None →
  nolink f p →
  walk n f follow [] p = Ok p ∨ walk n f follow [] p = Err ENOENT ∨
  walk n f follow [] p = Err ENOTDIR.
Proof.
  intros Hwf Hcs Hn Hnl.
  assert (∀ todo cur, p = cur ++ todo → is_Some (f !! cur) →
    walk n f follow cur todo = Ok p ∨ walk n f follow cur todo = Err ENOENT ∨
    walk n f follow cur todo = Err ENOTDIR) as Hgen.
  { induction todo as [|c rest IH]; intros cur Hp [d Hd].
    - rewrite app_nil_r in Hp. subst. congruence.
    - rewrite walk_cons. assert (comp_ok c) as Hc by (apply Hcs; subst; set_solver).
      destruct (comp_ok_tests c Hc) as [-> ->]. rewrite Hd.
      destruct (is_kdir (n_kind d)); [|auto].
      destruct (f !! (cur ++ [c])) as [nd|] eqn:E.
      + assert (is_klink (n_kind nd) = false) as Hk.
        { destruct rest as [|c' rest].
          - subst p. congruence.
          - destruct (Hnl (cur ++ [c]) c' rest) as [_ H]; [by rewrite <-app_assoc|]. by apply H. }
        destruct (n_kind nd); simpl in Hk; try done; (apply IH; [by rewrite <-app_assoc|by eexists]).
      + destruct rest; [left; by subst|auto]. }
  destruct (wf_root f Hwf) as (d & Hd & _). apply Hgen; [done|by eexists].
Qed.

(** ** [keys], [below] *)
Lemma elem_of_keys f p : p ∈ keys f ↔ is_Some (f !! p).
Proof.
  unfold keys. rewrite elem_of_list_fmap. split.
  - intros ([k n] & -> & H). apply elem_of_map_to_list in H. by exists n.
  - intros [n Hn]. exists (p, n). split; [done|]. by apply elem_of_map_to_list.
Qed.

Lemma NoDup_keys f : NoDup (keys f).
Proof. apply NoDup_fst_map_to_list. Qed.

Lemma elem_of_below f q p : p ∈ below f q ↔ is_Some (f !! p) ∧ under q p = true ∧ p ≠ q.
Proof. unfold below. rewrite elem_of_list_filter, elem_of_keys. tauto. Qed.

Lemma below_nil f q : below f q = [] ↔ ∀ s, s ≠ [] → f !! (q ++ s) = None.
Proof.
  split.
  - intros H s Hs. destruct (f !! (q ++ s)) eqn:E; [|done].
    assert (q ++ s ∈ below f q) as Hin.
    { apply elem_of_below. split; [by eexists|]. split; [apply under_app|].
      intros Heq. rewrite <-(app_nil_r q) in Heq at 2. by apply app_inv_head in Heq. }
    rewrite H in Hin. by apply elem_of_nil in Hin.
  - intros H. destruct (below f q) as [|p l] eqn:E; [done|].
    assert (p ∈ below f q) as Hin by (rewrite E; left).
    apply elem_of_below in Hin as (Hs & Hu & Hne).
    apply under_spec in Hu as [s ->]. destruct s as [|c s].
    + by rewrite app_nil_r in Hne.
    + rewrite H in Hs by done. by destruct Hs.
Qed.

Lemma below_nil_wf f q : wf_tree f → (∀ c, f !! (q ++ [c]) = None) → below f q = [].
Proof.
  intros Hwf H. apply below_nil. intros [|c s] Hs; [done|].
  destruct (f !! (q ++ c :: s)) eqn:E; [|done].
  change (c :: s) with ([c] ++ s) in E. rewrite app_assoc in E.
  destruct (wf_is_Some_prefix f (q ++ [c]) s _ Hwf E) as [? Hx].
  by rewrite H in Hx.
Qed.

(** ** Preservation of well-formedness *)
Lemma snoc_ne_self {A : Type} (p : list A) s : s ≠ [] → p ++ s ≠ p.
Proof.
  intros Hs H. apply Hs. rewrite <-(app_nil_r p) in H at 2. by apply app_inv_head in H.
Qed.

Lemma wf_delete f q : wf_tree f → q ≠ [] → below f q = [] → wf_tree (delete q f).
Proof.
  intros Hwf Hq Hb. split.
  - destruct (wf_root f Hwf) as (n & Hn & Hk). exists n. split; [|done].
    by rewrite lookup_delete_ne.
  - intros p c n Hn. rewrite lookup_delete_Some in Hn. destruct Hn as [Hne Hn].
    destruct (wf_parent f Hwf _ _ _ Hn) as (d & Hd & Hk). exists d. split; [|done].
    rewrite lookup_delete_ne; [done|]. intros ->.
    rewrite below_nil in Hb. rewrite Hb in Hn by done. done.
  - intros p c n Hn. rewrite lookup_delete_Some in Hn. destruct Hn as [_ Hn]. by eapply wf_comp.
  - intros p n Hn. rewrite lookup_delete_Some in Hn. destruct Hn as [_ Hn]. by eapply wf_perm.
Qed.

Lemma wf_insert f q n :
  wf_tree f → dirpath f q → (n_perm n < 4096)%N → (n_kind n = KDir ∨ (q ≠ [] ∧ below f q = [])) →
  wf_tree (<[q := n]> f).
Proof.
  intros Hwf Hdp Hperm Hkind. split.
  - destruct (decide (q = [])) as [->|Hne].
    + exists n. split; [by rewrite lookup_insert|]. destruct Hkind as [?|[? _]]; done.
    + destruct (wf_root f Hwf) as (d & Hd & Hk). exists d. split; [|done].
      by rewrite lookup_insert_ne.
  - intros p c m Hm. destruct (decide (q = p ++ [c])) as [->|Hne].
    + apply dirpath_snoc_inv in Hdp as [(d & Hd & Hk) _]. exists d. split; [|done].
      rewrite lookup_insert_ne; [done|]. intros E. by apply snoc_ne_self in E.
    + rewrite lookup_insert_ne in Hm by done.
      destruct (wf_parent f Hwf _ _ _ Hm) as (d & Hd & Hk).
      destruct (decide (q = p)) as [->|Hne'].
      * exists n. rewrite lookup_insert. split; [done|].
        destruct Hkind as [?|[_ Hb]]; [done|]. rewrite below_nil in Hb.
        by rewrite Hb in Hm.
      * exists d. by rewrite lookup_insert_ne.
  - intros p c m Hm. destruct (decide (q = p ++ [c])) as [->|Hne].
    + by apply dirpath_snoc_inv in Hdp as (_ & ? & _).
    + rewrite lookup_insert_ne in Hm by done. by eapply wf_comp.
  - intros p m Hm. destruct (decide (q = p)) as [->|Hne].
    + rewrite lookup_insert in Hm. by injection Hm as <-.
    + rewrite lookup_insert_ne in Hm by done. by eapply wf_perm.
Qed.

Lemma wf_nondir_below f p n : wf_tree f → f !! p = Some n → n_kind n ≠ KDir → below f p = [].
Proof.
  intros Hwf Hn Hk. apply below_nil. intros s Hs. destruct (f !! (p ++ s)) eqn:E; [|done].
  destruct (wf_prefix _ _ _ _ Hwf E Hs) as (d & Hd & Hkd). congruence.
Qed.

Lemma wf_none_below f p : wf_tree f → f !! p = None → below f p = [].
Proof.
  intros Hwf Hn. apply below_nil. intros s Hs. destruct (f !! (p ++ s)) eqn:E; [|done].
  destruct (wf_prefix _ _ _ _ Hwf E Hs) as (d & Hd & Hkd). congruence.
Qed.

Lemma below_delete f p q : below f q = [] → below (delete p f) q = [].
Proof.
  rewrite !below_nil. intros H s Hs. destruct (decide (p = q ++ s)) as [->|Hne].
  - apply lookup_delete.
  - rewrite lookup_delete_ne by done. by apply H.
Qed.

(** ** Moving a subtree *)
Lemma NoDup_fst_filter {K V : Type} (P : K * V → Prop) `{!∀ x, Decision (P x)} (l : list (K * V)) :
  NoDup l.*1 → NoDup (filter P l).*1.
Proof.
  induction l as [|[k v] l IH]; [done|]. cbn [fmap list_fmap fst]. intros HN.
  apply NoDup_cons in HN as [H1 H2]. rewrite filter_cons. destruct (decide (P (k, v))).
  - cbn [fmap list_fmap fst]. constructor; [|by apply IH]. intros Hin. apply H1.
    apply elem_of_list_fmap in Hin as (x & E & Hx). apply elem_of_list_filter in Hx as [_ Hx].
    apply elem_of_list_fmap. by exists x.
  - by apply IH.
Qed.

Lemma rekey_under old new k : under old k = true → ∃ s, k = old ++ s ∧ rekey old new k = new ++ s.
Proof.
  intros H. apply under_spec in H as [s ->]. exists s. split; [done|].
  unfold rekey. by rewrite path_strip_app.
Qed.

Lemma rekey_not_under old new k : under old k = false → rekey old new k = k.
Proof. intros H. unfold rekey. apply path_strip_None in H. by rewrite H. Qed.

Lemma lookup_moved f old new q :
  under old new = false → under new old = false →
  moved f old new !! q =
    match path_strip new q with
    | Some s => f !! (old ++ s)
    | None => if under old q then None else f !! q
    end.
Proof.
  intros Hon Hno. unfold moved.
  set (l := filter _ (map_to_list f)).
  set (g := λ kn : path * node, (rekey old new kn.1, kn.2)).
  assert (Hl : ∀ k n, (k, n) ∈ l ↔ f !! k = Some n ∧ (under old k = true ∨ under new k = false)).
  { intros k n. unfold l. rewrite elem_of_list_filter, elem_of_map_to_list. simpl. tauto. }
  assert (Hdisj : ∀ k, under old k = true → under new k = true → False).
  { intros k H1 H2. destruct (under_comparable _ _ _ H1 H2); congruence. }
  assert (HND : NoDup (g <$> l).*1).
  { rewrite <-list_fmap_compose.
    assert (∀ k1 n1 k2 n2, (k1, n1) ∈ l → (k2, n2) ∈ l →
              rekey old new k1 = rekey old new k2 → k1 = k2) as Hinj.
    { intros k1 n1 k2 n2 [_ H1]%Hl [_ H2]%Hl E.
      destruct (under old k1) eqn:U1, (under old k2) eqn:U2.
      - apply (rekey_under old new) in U1 as (s1 & -> & E1), U2 as (s2 & -> & E2).
        rewrite E1, E2 in E. by apply app_inv_head in E as ->.
      - destruct H2 as [?|H2]; [done|]. rewrite (rekey_not_under old new k2 U2) in E.
        apply (rekey_under old new) in U1 as (s1 & -> & E1). rewrite E1 in E. subst k2.
        by rewrite under_app in H2.
      - destruct H1 as [?|H1]; [done|]. rewrite (rekey_not_under old new k1 U1) in E.
        apply (rekey_under old new) in U2 as (s2 & -> & E2). rewrite E2 in E. subst k1.
        by rewrite under_app in H1.
      - by rewrite !rekey_not_under in E by done. }
    assert (NoDup l.*1) as HNl.
    { apply NoDup_fst_filter, NoDup_fst_map_to_list. }
    clear Hl. induction l as [|[k n] l IH]; [constructor|].
    simpl in HNl. apply NoDup_cons in HNl as [Hnin HNl]. simpl. constructor.
    - intros Hin. apply elem_of_list_fmap in Hin as ([k' n'] & E & Hin). simpl in E.
      assert (k = k') as -> by (eapply Hinj; [left|by right|done]).
      apply Hnin. apply elem_of_list_fmap. by exists (k', n').
    - apply IH; [|done]. intros k1 n1 k2 n2 ? ? ?. apply (Hinj k1 n1 k2 n2); [by right|by right|done]. }
  assert (Hlk : ∀ v, (list_to_map (g <$> l) : fs) !! q = Some v ↔
                   ∃ k, rekey old new k = q ∧ f !! k = Some v ∧
                        (under old k = true ∨ under new k = false)).
  { intros v. rewrite <-elem_of_list_to_map by done. rewrite elem_of_list_fmap. split.
    - intros ([k n] & E & Hin). injection E as -> ->. apply Hl in Hin. by exists k.
    - intros (k & E & Hin). exists (k, v). split; [unfold g; simpl; by rewrite E|by apply Hl]. }
  destruct (path_strip new q) as [s|] eqn:Es.
  - apply path_strip_spec in Es as ->.
    apply option_eq. intros v. rewrite Hlk. split.
    + intros (k & E & Hf & [Hu|Hu]).
      * apply (rekey_under old new) in Hu as (s' & -> & E'). rewrite E' in E.
        by apply app_inv_head in E as ->.
      * destruct (under old k) eqn:Uk.
        -- apply (rekey_under old new) in Uk as (s' & -> & E'). rewrite E' in E.
           by apply app_inv_head in E as ->.
        -- rewrite rekey_not_under in E by done. subst k. by rewrite under_app in Hu.
    + intros Hf. exists (old ++ s). split; [|split; [done|left; apply under_app]].
      unfold rekey. by rewrite path_strip_app.
  - apply path_strip_None in Es.
    destruct (under old q) eqn:Uq.
    + destruct ((list_to_map (g <$> l) : fs) !! q) as [v|] eqn:Ev; [|done].
      destruct (proj1 (Hlk v) eq_refl) as (k & E & Hf & _). destruct (under old k) eqn:Uk.
      * apply (rekey_under old new) in Uk as (s' & -> & E'). rewrite E' in E. subst q.
        by rewrite under_app in Es.
      * rewrite rekey_not_under in E by done. congruence.
    + apply option_eq. intros v. rewrite Hlk. split.
      * intros (k & E & Hf & Hu). destruct (under old k) eqn:Uk.
        -- apply (rekey_under old new) in Uk as (s' & -> & E'). rewrite E' in E. subst q.
           by rewrite under_app in Es.
        -- rewrite rekey_not_under in E by done. by subst.
      * intros Hf. exists q. rewrite rekey_not_under by done. auto.
Qed.

(** ** The monad *)
Lemma bind_ok {A B : Type} (m : M A) (k : A → M B) f a :
  o_res (m f) = Ok a →
  bind_ m k f = Out (o_trace (m f) ++ o_trace (k a (o_fs (m f)))) (o_fs (k a (o_fs (m f))))
                  (o_res (k a (o_fs (m f)))).
Proof. intros H. unfold bind_. by rewrite H. Qed.

Lemma bind_err {A B : Type} (m : M A) (k : A → M B) f e :
  o_res (m f) = Err e → bind_ m k f = Out (o_trace (m f)) (o_fs (m f)) (Err e).
Proof. intros H. unfold bind_. by rewrite H. Qed.

(** [P] holds in every state reached by running [m] from a state satisfying [P]. *)
Definition keeps {A : Type} (P : fs → Prop) (m : M A) : Prop :=
  ∀ f, P f → Forall P (o_trace (m f)) ∧ P (o_fs (m f)).

Lemma keeps_ret {A : Type} (P : fs → Prop) (a : A) : keeps P (ret_ a).
Proof. intros f Hf. split; [constructor|done]. Qed.
Lemma keeps_throw {A : Type} (P : fs → Prop) (e : err) : keeps P (throw e : M A).
Proof. intros f Hf. split; [constructor|done]. Qed.
Lemma keeps_get {A : Type} (P : fs → Prop) (r : fs → res A) : keeps P (get_ r).
Proof. intros f Hf. split; [constructor|done]. Qed.
Lemma keeps_bind {A B : Type} (P : fs → Prop) (m : M A) (k : A → M B) :
  keeps P m → (∀ a, keeps P (k a)) → keeps P (bind_ m k).
Proof.
  intros Hm Hk f Hf. destruct (Hm f Hf) as [H1 H2]. unfold bind_.
  destruct (o_res (m f)) as [a|e]; simpl; [|done].
  destruct (Hk a _ H2) as [H3 H4]. split; [|done]. by apply Forall_app.
Qed.
(** Variant where the continuation may use what was read. *)
Lemma keeps_bind_get {A B : Type} (P : fs → Prop) (r : fs → res A) (k : A → M B) :
  (∀ f a, P f → r f = Ok a → Forall P (o_trace (k a f)) ∧ P (o_fs (k a f))) →
  keeps P (bind_ (get_ r) k).
Proof.
  intros Hk f Hf. unfold bind_, get_. simpl. destruct (r f) as [a|e] eqn:E; simpl.
  - by apply Hk.
  - split; [constructor|done].
Qed.
Lemma keeps_for {A : Type} (P : fs → Prop) (l : list A) (g : A → M unit) :
  (∀ x, x ∈ l → keeps P (g x)) → keeps P (for_ l g).
Proof.
  induction l as [|x l IH]; intros H; simpl; [apply keeps_ret|].
  apply keeps_bind; [apply H; left|]. intros _. apply IH. intros y Hy. apply H. by right.
Qed.
Lemma keeps_ext {A : Type} (P Q : fs → Prop) (m : M A) :
  (∀ f, P f ↔ Q f) → keeps P m → keeps Q m.
Proof.
  intros H Hm f Hf. destruct (Hm f) as [H1 H2]; [by apply H|]. split.
  - eapply Forall_impl; [exact H1|]. intros x. apply H.
  - by apply H.
Qed.

Lemma for_app {A : Type} (l k : list A) (g : A → M unit) f :
  for_ (l ++ k) g f = (for_ l g ;;; for_ k g)%M f.
Proof.
  revert f. induction l as [|x l IH]; intros f; simpl.
  - unfold bind_; simpl. by destruct (for_ k g f).
  - unfold bind_. destruct (g x f) as [t f1 r]; simpl. destruct r as [[]|e]; simpl; [|done].
    rewrite IH. unfold bind_. destruct (for_ l g f1) as [t2 f2 r2]; simpl.
    destruct r2 as [[]|e2]; simpl; [|done]. by rewrite app_assoc.
Qed.
