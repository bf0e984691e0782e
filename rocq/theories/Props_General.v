(** * What holds of every accept, whatever the sandbox and the host contain: renamed directories,
    symbolic links anywhere, several mount points, any selection.

    The theorems of this file need none of the shape conditions ([sandbox_ok], [renamed_ok]) used
    elsewhere. *)
From Verif Require Export Props_Accept Props_Listing RedirectSpec.

(** ** Removing entries can only make lookups fail *)
Lemma walk_mono (s s' : fs) : s' ⊆ s → ∀ (n : nat) (follow : bool) (cur : path) (todo : list string) (q : path),
  walk n s' follow cur todo = Ok q → is_Some (s' !! q) → walk n s follow cur todo = Ok q.
Proof.
  intros Hsub n. induction n as [n IHn] using lt_wf_ind. intros follow cur todo. revert cur.
  induction todo as [|c rest IH]; intros cur q; [rewrite !walk_nil; done|].
  rewrite !walk_cons. destruct (String.eqb c "" || String.eqb c "."); [by apply IH|].
  destruct (String.eqb c ".."); [by apply IH|].
  destruct (s' !! cur) as [d|] eqn:Ed; [|done].
  rewrite (lookup_weaken s' s cur d Ed Hsub).
  destruct (is_kdir (n_kind d)); [|done].
  destruct (s' !! (cur ++ [c])) as [nd|] eqn:En.
  - rewrite (lookup_weaken s' s _ nd En Hsub).
    destruct (n_kind nd) eqn:Ek; try by apply IH.
    assert (match n with
            | 0 => Err ELOOP
            | S n' => walk n' s' follow (if is_abs target then [] else cur) (split_on "/" target ++ rest)
            end = Ok q → is_Some (s' !! q) →
            match n with
            | 0 => Err ELOOP
            | S n' => walk n' s follow (if is_abs target then [] else cur) (split_on "/" target ++ rest)
            end = Ok q) as Hl.
    { destruct n as [|n']; [done|]. apply IHn. lia. }
    destruct rest; [|exact Hl]. destruct follow; [exact Hl|done].
  - destruct rest; [|done]. intros [= <-] [m Hm]. congruence.
Qed.

Lemma lstat_mono (s s' : fs) (p : path) (n : node) : s' ⊆ s → lstat s' p = Ok n →
  ∃ q, lookup_l s p = Ok q ∧ lookup_l s' p = Ok q ∧ s' !! q = Some n.
Proof.
  intros Hsub. unfold lstat. destruct (lookup_l s' p) as [q|er] eqn:E; cbn [rbind]; [|intros H; inversion H].
  destruct (s' !! q) as [m|] eqn:Em; [|intros H; inversion H]. intros [= ->].
  exists q. split; [|split; [exact eq_refl|exact Em]].
  unfold lookup_l in *. apply (walk_mono s s' Hsub _ _ _ _ _ E). by exists n.
Qed.

(** ** Programs that only remove *)
Definition shrinks {A : Type} (m : M A) : Prop := ∀ s, o_fs (m s) ⊆ s.

Lemma shrinks_ret {A : Type} (a : A) : shrinks (ret_ a). Proof. intros s. reflexivity. Qed.
Lemma shrinks_throw {A : Type} (e : err) : shrinks (throw e : M A). Proof. intros s. reflexivity. Qed.
Lemma shrinks_get {A : Type} (r : fs → res A) : shrinks (get_ r). Proof. intros s. reflexivity. Qed.
Lemma shrinks_bind {A B : Type} (m : M A) (k : A → M B) : shrinks m → (∀ a, shrinks (k a)) → shrinks (bind_ m k).
Proof.
  intros Hm Hk s. unfold bind_. specialize (Hm s).
  destruct (o_res (m s)) as [a|er]; cbn [o_fs]; [|exact Hm].
  etrans; [apply Hk|exact Hm].
Qed.
Lemma shrinks_for {A : Type} (l : list A) (g : A → M unit) : (∀ x, shrinks (g x)) → shrinks (for_ l g).
Proof.
  intros H. induction l as [|x l IH]; cbn [for_]; [apply shrinks_ret|].
  apply shrinks_bind; [apply H|]. intros _. exact IH.
Qed.
Lemma shrinks_unlink (p : path) : shrinks (sys_unlink p).
Proof.
  intros s. unfold sys_unlink. destruct (lookup_l s p) as [q|er]; [|reflexivity].
  destruct (s !! q) as [n|]; [|reflexivity]. destruct (is_kdir (n_kind n)); [reflexivity|].
  cbn [o_fs emit]. apply delete_subseteq.
Qed.
Lemma shrinks_rmdir (p : path) : shrinks (sys_rmdir p).
Proof.
  intros s. unfold sys_rmdir. destruct (lookup_l s p) as [q|er]; [|reflexivity].
  destruct (s !! q) as [n|]; [|reflexivity]. destruct (is_kdir (n_kind n)); [|reflexivity].
  destruct q as [|x q]; [reflexivity|]. case_decide; [|reflexivity].
  destruct (below s (x :: q)); [|reflexivity]. cbn [o_fs emit]. apply delete_subseteq.
Qed.
Lemma shrinks_rmdir_recursive (fuel : nat) (ord : list path → list path) (p : path) :
  shrinks (rmdir_recursive fuel ord p).
Proof.
  revert p. induction fuel as [|n IH]; intros p; cbn [rmdir_recursive]; [apply shrinks_throw|].
  apply shrinks_bind; [apply shrinks_get|]. intros root.
  apply shrinks_bind; [apply shrinks_get|]. intros names.
  apply shrinks_bind; [|intros _; apply shrinks_rmdir].
  apply shrinks_for. intros ep. apply shrinks_bind; [apply shrinks_get|]. intros st.
  destruct (negb (N.eqb (n_dev st) (n_dev root))); [apply shrinks_throw|].
  destruct (is_kdir (n_kind st)); [apply IH|apply shrinks_unlink].
Qed.
Lemma shrinks_clean_one (e : env) (p : path) : shrinks (clean_one e p).
Proof.
  unfold clean_one. apply shrinks_bind; [apply shrinks_get|]. intros [|]; [|apply shrinks_unlink].
  intros s. unfold rmdir_rec. apply shrinks_rmdir_recursive.
Qed.

(** After a successful removal the path leads nowhere, and removing more does not change that. *)
Definition gone (s : fs) (p : path) : Prop := ∃ er, lstat s p = Err er.
Lemma not_gone (s : fs) (p : path) : ¬ gone s p → ∃ n, lstat s p = Ok n.
Proof. intros H. destruct (lstat s p) as [n|er] eqn:E; [by exists n|]. destruct H. by exists er. Qed.
Lemma gone_dec (s : fs) (p : path) : gone s p ∨ ∃ n, lstat s p = Ok n.
Proof. unfold gone. destruct (lstat s p) as [n|er]; [right; by exists n|left; by exists er]. Qed.

Lemma unlink_gone (s s' : fs) (p : path) : o_res (sys_unlink p s) = Ok tt → s' ⊆ o_fs (sys_unlink p s) → gone s' p.
Proof.
  intros Hok Hsub. destruct (gone_dec s' p) as [|[n Hn]]; [assumption|exfalso].
  assert (s' ⊆ s) as Hss by (etrans; [exact Hsub|apply shrinks_unlink]).
  destruct (lstat_mono s s' p n Hss Hn) as (q & Hq & _ & Hqn).
  unfold sys_unlink in Hok, Hsub. rewrite Hq in Hok, Hsub.
  destruct (s !! q) as [m|]; [|cbn in Hok; discriminate Hok].
  destruct (is_kdir (n_kind m)); [cbn in Hok; discriminate Hok|].
  cbn [o_fs emit] in Hsub.
  pose proof (lookup_weaken _ _ _ _ Hqn Hsub) as Hw. rewrite lookup_delete in Hw. discriminate Hw.
Qed.
Lemma rmdir_gone (s s' : fs) (p : path) : o_res (sys_rmdir p s) = Ok tt → s' ⊆ o_fs (sys_rmdir p s) → gone s' p.
Proof.
  intros Hok Hsub. destruct (gone_dec s' p) as [|[n Hn]]; [assumption|exfalso].
  assert (s' ⊆ s) as Hss by (etrans; [exact Hsub|apply shrinks_rmdir]).
  destruct (lstat_mono s s' p n Hss Hn) as (q & Hq & _ & Hqn).
  unfold sys_rmdir in Hok, Hsub. rewrite Hq in Hok, Hsub.
  destruct (s !! q) as [m|]; [|cbn in Hok; discriminate Hok].
  destruct (is_kdir (n_kind m)); [|cbn in Hok; discriminate Hok].
  destruct q as [|x q]; [cbn in Hok; discriminate Hok|].
  case_decide; [|cbn in Hok; discriminate Hok].
  destruct (below s (x :: q)); [|cbn in Hok; discriminate Hok].
  cbn [o_fs emit] in Hsub.
  pose proof (lookup_weaken _ _ _ _ Hqn Hsub) as Hw. rewrite lookup_delete in Hw. discriminate Hw.
Qed.

(** The result and final state of a sequence, when it succeeds. *)
Lemma bind_inv {A B : Type} (m : M A) (k : A → M B) (s : fs) (b : B) : o_res (bind_ m k s) = Ok b →
  ∃ a, o_res (m s) = Ok a ∧ o_res (k a (o_fs (m s))) = Ok b ∧ o_fs (bind_ m k s) = o_fs (k a (o_fs (m s))).
Proof.
  unfold bind_. destruct (o_res (m s)) as [a|er]; cbn [o_res o_fs]; [|intros H; inversion H].
  intros H. exists a. auto.
Qed.

Lemma rmdir_recursive_gone (fuel : nat) (ord : list path → list path) (p : path) (s s' : fs) :
  o_res (rmdir_recursive fuel ord p s) = Ok tt → s' ⊆ o_fs (rmdir_recursive fuel ord p s) → gone s' p.
Proof.
  destruct fuel as [|n]; [intros H; inversion H|]. cbn [rmdir_recursive].
  intros H1 Hsub.
  destruct (bind_inv _ _ _ _ H1) as (root & _ & H2 & E2). rewrite E2 in Hsub.
  destruct (bind_inv _ _ _ _ H2) as (names & _ & H3 & E3). rewrite E3 in Hsub.
  destruct (bind_inv _ _ _ _ H3) as (u & _ & H4 & E4). rewrite E4 in Hsub.
  exact (rmdir_gone _ _ _ H4 Hsub).
Qed.

Lemma clean_one_gone (e : env) (p : path) (s s' : fs) :
  o_res (clean_one e p s) = Ok tt → s' ⊆ o_fs (clean_one e p s) → gone s' p.
Proof.
  unfold clean_one. intros H Hsub. destruct (bind_inv _ _ _ _ H) as (d & _ & H2 & E2). rewrite E2 in Hsub.
  destruct d; [|exact (unlink_gone _ _ _ H2 Hsub)].
  unfold rmdir_rec in H2, Hsub. exact (rmdir_recursive_gone _ _ _ _ _ H2 Hsub).
Qed.

Lemma clean_for_gone (e : env) (l : list path) (s s' : fs) : o_res (for_ l (clean_one e) s) = Ok tt →
  s' ⊆ o_fs (for_ l (clean_one e) s) → ∀ p, p ∈ l → gone s' p.
Proof.
  revert s. induction l as [|x l IH]; intros s H Hsub p Hp; [by apply elem_of_nil in Hp|].
  cbn [for_] in H, Hsub. destruct (bind_inv _ _ _ _ H) as (u & H1 & H2 & E2). destruct u. rewrite E2 in Hsub.
  apply elem_of_cons in Hp as [-> |Hp].
  - apply (clean_one_gone e x s s' H1). etrans; [exact Hsub|]. apply shrinks_for. intros y. apply shrinks_clean_one.
  - exact (IH _ H2 Hsub p Hp).
Qed.

Lemma clean_up_gone (e : env) (ps : list path) (s : fs) : o_res (clean_up e ps s) = Ok tt →
  ∀ p, p ∈ ps → gone (o_fs (clean_up e ps s)) p.
Proof.
  unfold clean_up. intros H p Hp. apply (clean_for_gone e _ s _ H); [reflexivity|].
  by rewrite elem_of_dedup, elem_of_sort_by.
Qed.

(** ** What a loop puts aside for cleaning up *)
Lemma accum_collects {A : Type} (l : list A) (g : A → M (nat * list path)) (s : fs) (r : nat * list path) :
  o_res (accum l g s) = Ok r →
  ∀ x, x ∈ l → ∃ s1 r1, o_res (g x s1) = Ok r1 ∧ ∀ p, p ∈ r1.2 → p ∈ r.2.
Proof.
  revert s r. induction l as [|y l IH]; intros s r H x Hx; [by apply elem_of_nil in Hx|].
  cbn [accum] in H. destruct (bind_inv _ _ _ _ H) as (r1 & H1 & H2 & _).
  destruct (bind_inv _ _ _ _ H2) as (r2 & H3 & H4 & _). cbn in H4. injection H4 as <-. cbn [fst snd].
  apply elem_of_cons in Hx as [-> |Hx].
  - exists s, r1. split; [exact H1|]. intros p Hp. apply elem_of_app. by left.
  - destruct (IH _ _ H3 x Hx) as (s1 & r3 & H5 & H6). exists s1, r3. split; [exact H5|].
    intros p Hp. apply elem_of_app. right. by apply H6.
Qed.

Lemma remove_collects (c : change) (s : fs) (r : nat * list path) (d : details) :
  o_res (accept_remove false c s) = Ok r → c_op c = ORemove → c_staged c = Some d → d_path d ∈ r.2.
Proof.
  intros H Ho Hd. unfold accept_remove in H. rewrite Ho in H.
  destruct (c_source c) as [so|]; [|inversion H].
  destruct (bind_inv _ _ _ _ H) as (u & _ & H2 & _). cbn in H2. rewrite Hd in H2. injection H2 as <-.
  cbn. by apply elem_of_list_singleton.
Qed.

Lemma set_collects (e : env) (ph i : nat) (c : change) (s : fs) (r : nat * list path) (d : details) :
  o_res (accept_set e ph false (i, c) s) = Ok r → c_op c ≠ ORemove → c_staged c = Some d → d_path d ∈ r.2.
Proof.
  intros H Ho Hd. unfold accept_set in H. destruct (c_op c) as [t| | |er]; [| |clear Ho|]; [|by destruct Ho| |inversion H].
  - rewrite Hd in H. destruct (d_is_file d).
    { destruct (bind_inv _ _ _ _ H) as (u & _ & H2 & _). destruct (bind_inv _ _ _ _ H2) as (u2 & _ & H3 & _).
      destruct (bind_inv _ _ _ _ H3) as (u3 & _ & H4 & _). cbn in H4. injection H4 as <-. by apply elem_of_list_singleton. }
    destruct (d_is_symlink d).
    { destruct (bind_inv _ _ _ _ H) as (u & _ & H2 & _). destruct (bind_inv _ _ _ _ H2) as (u2 & _ & H3 & _).
      destruct (bind_inv _ _ _ _ H3) as (u3 & _ & H4 & _). destruct (bind_inv _ _ _ _ H4) as (u4 & _ & H5 & _).
      destruct (bind_inv _ _ _ _ H5) as (u5 & _ & H6 & _).
      cbn in H6. injection H6 as <-. by apply elem_of_list_singleton. }
    destruct (d_is_dir d); [|inversion H].
    destruct (bind_inv _ _ _ _ H) as (u & _ & H2 & _). destruct (bind_inv _ _ _ _ H2) as (u2 & _ & H3 & _).
    destruct (bind_inv _ _ _ _ H3) as (u3 & _ & H4 & _). cbn in H4. injection H4 as <-. by apply elem_of_list_singleton.
  - destruct (c_tmp c) as [t|]; [|inversion H].
    destruct (bind_inv _ _ _ _ H) as (u & _ & H2 & _). cbn in H2. rewrite Hd in H2. injection H2 as <-.
    by apply elem_of_list_singleton.
Qed.

Lemma assign_tmp_fields (e : env) (ph i : nat) (c : change) :
  c_op (assign_tmp e ph i c) = c_op c ∧ c_staged (assign_tmp e ph i c) = c_staged c ∧
  c_dest (assign_tmp e ph i c) = c_dest c ∧ c_source (assign_tmp e ph i c) = c_source c.
Proof. unfold assign_tmp. destruct (c_op c) eqn:E; destruct (c_source c) eqn:E2; cbn; auto. Qed.

Lemma elem_of_imap_from {A B : Type} (g : nat → A → B) (l : list A) (x : A) : x ∈ l → ∃ i, g i x ∈ imap g l.
Proof.
  intros H. apply elem_of_list_lookup in H as [i H]. exists i. apply elem_of_list_lookup. exists i.
  rewrite list_lookup_imap, H. reflexivity.
Qed.
Lemma elem_of_imap_to {A B : Type} (g : nat → A → B) (l : list A) (y : B) : y ∈ imap g l → ∃ i x, x ∈ l ∧ y = g i x.
Proof.
  intros H. apply elem_of_list_lookup in H as [i H]. rewrite list_lookup_imap in H.
  destruct (l !! i) as [x|] eqn:E; cbn in H; [|discriminate H]. injection H as <-.
  exists i, x. split; [|reflexivity]. by eapply elem_of_list_lookup_2.
Qed.

(** A change as it appears in the second pass. *)
Definition same_change (c c' : change) : Prop :=
  c_op c' = c_op c ∧ c_staged c' = c_staged c ∧ c_dest c' = c_dest c ∧ c_source c' = c_source c.
Lemma same_change_refl (c : change) : same_change c c. Proof. unfold same_change. auto. Qed.
Lemma same_change_trans (a b c : change) : same_change a b → same_change b c → same_change a c.
Proof. unfold same_change. intuition congruence. Qed.

Lemma pass_list (e : env) (ph : nat) (cs : list change) :
  let cs3 := sort_by by_destination (imap (assign_tmp e ph) (sort_by by_reverse_source (sort_by by_reverse_source cs))) in
  (∀ c, c ∈ cs → ∃ c', c' ∈ cs3 ∧ same_change c c') ∧ (∀ c', c' ∈ cs3 → ∃ c, c ∈ cs ∧ same_change c c').
Proof.
  intros cs3. split.
  - intros c Hc.
    assert (c ∈ sort_by by_reverse_source (sort_by by_reverse_source cs)) as Hc2 by (by rewrite !elem_of_sort_by).
    destruct (elem_of_imap_from (assign_tmp e ph) _ c Hc2) as [i Hi]. exists (assign_tmp e ph i c). split.
    + unfold cs3. by rewrite elem_of_sort_by.
    + apply assign_tmp_fields.
  - intros c' Hc'. unfold cs3 in Hc'. rewrite elem_of_sort_by in Hc'.
    apply elem_of_imap_to in Hc' as (i & c & Hc & ->). exists c. split.
    + by rewrite !elem_of_sort_by in Hc.
    + apply assign_tmp_fields.
Qed.

Lemma pass_clean (e : env) (ph : nat) (cs : list change) (s : fs) (r : nat * list change) :
  o_res (accept_pass e ph false cs s) = Ok r →
  ∀ c d, c ∈ cs → c_staged c = Some d → gone (o_fs (accept_pass e ph false cs s)) (d_path d).
Proof.
  intros H c d Hc Hd. unfold accept_pass in *.
  destruct (bind_inv _ _ _ _ H) as (r1 & H1 & H2 & ->).
  destruct (bind_inv _ _ _ _ H2) as (u & _ & H3 & ->).
  destruct (bind_inv _ _ _ _ H3) as (r3 & H4 & H5 & ->).
  destruct (bind_inv _ _ _ _ H5) as (u2 & H6 & H7 & ->). cbn [ret_ o_fs]. destruct u2.
  apply (clean_up_gone _ _ _ H6). apply elem_of_app.
  destruct (pass_list e ph cs) as [Hl _]. destruct (Hl c Hc) as (c' & Hc' & Ho & Hs & _).
  assert (c_op c = ORemove ∨ c_op c ≠ ORemove) as [Hop|Hop] by (destruct (c_op c); auto; right; intros Hx; inversion Hx).
  - left. destruct (accum_collects _ _ _ _ H1 c ltac:(by rewrite elem_of_sort_by)) as (s1 & r2 & Hr2 & Hin).
    apply Hin. exact (remove_collects c s1 r2 d Hr2 Hop Hd).
  - right. destruct (elem_of_imap_from (λ i c, (i, c)) _ c' Hc') as [i Hi].
    destruct (accum_collects _ _ _ _ H4 _ Hi) as (s1 & r2 & Hr2 & Hin).
    apply Hin. apply (set_collects e ph i c' s1 r2 d Hr2); [by rewrite Ho|by rewrite Hs].
Qed.

(** ** The two passes *)
Lemma pass_result (e : env) (ph : nat) (pretend : bool) (cs : list change) (s : fs) (r : nat * list change) :
  o_res (accept_pass e ph pretend cs s) = Ok r →
  r.2 = sort_by by_destination (imap (assign_tmp e ph) (sort_by by_reverse_source (sort_by by_reverse_source cs))).
Proof.
  intros H. unfold accept_pass in *.
  destruct (bind_inv _ _ _ _ H) as (r1 & H1 & H2 & _).
  destruct (bind_inv _ _ _ _ H2) as (u & _ & H3 & _).
  destruct (bind_inv _ _ _ _ H3) as (r3 & H4 & H5 & _).
  destruct (bind_inv _ _ _ _ H5) as (u2 & H6 & H7 & _). cbn in H7. injection H7 as <-. reflexivity.
Qed.

Lemma bind_pure {A B : Type} (m : M A) (k : A → M B) (f : fs) : pure m →
  bind_ m k f = match o_res (m f) with Ok a => k a f | Err er => Out [] f (Err er) end.
Proof.
  intros Hp. destruct (Hp f) as [Ht Hf]. unfold bind_. rewrite Ht, Hf.
  destruct (o_res (m f)) as [a|er]; [|reflexivity]. cbn [app]. by destruct (k a f).
Qed.
Lemma bind_ret {A B : Type} (m : M A) (g : A → B) (f : fs) :
  o_trace (bind_ m (λ a, ret_ (g a)) f) = o_trace (m f) ∧ o_fs (bind_ m (λ a, ret_ (g a)) f) = o_fs (m f) ∧
  is_ok (o_res (bind_ m (λ a, ret_ (g a)) f)) = is_ok (o_res (m f)).
Proof.
  unfold bind_. destruct (o_res (m f)); cbn [o_trace o_fs o_res ret_ is_ok]; rewrite ?app_nil_r; auto.
Qed.

Lemma accept_passes (e : env) (f : fs) (ub : path) (inc : bool) (pats : list string) (sel : list change) :
  selected e f ub inc pats = Ok sel → sel ≠ [] →
  (∃ er, accept e ub inc pats f = Out [] f (Err er)) ∨
  ∃ r1, o_res (accept_pass e 0 true sel f) = Ok r1 ∧
    o_trace (accept e ub inc pats f) = o_trace (accept_pass e 2 false r1.2 f) ∧
    o_fs (accept e ub inc pats f) = o_fs (accept_pass e 2 false r1.2 f) ∧
    is_ok (o_res (accept e ub inc pats f)) = is_ok (o_res (accept_pass e 2 false r1.2 f)).
Proof.
  intros Hs Hne. unfold accept. rewrite bind_pure by apply pure_get.
  unfold selected in Hs. change (o_res (get_ (λ f0, changes e f0 ub inc) f)) with (changes e f ub inc).
  destruct (changes e f ub inc) as [all|er]; [|inversion Hs]. cbn [rbind] in Hs. injection Hs as Hs.
  cbv zeta. rewrite Hs. destruct sel as [|c sel]; [by destruct Hne|].
  rewrite bind_pure by apply pure_pretend.
  destruct (o_res (accept_pass e 0 true (c :: sel) f)) as [r1|er]; [|left; by exists er].
  right. exists r1. split; [reflexivity|]. apply bind_ret.
Qed.

Lemma accept_nothing (e : env) (f : fs) (ub : path) (inc : bool) (pats : list string) :
  selected e f ub inc pats = Ok [] → o_trace (accept e ub inc pats f) = [] ∧ o_fs (accept e ub inc pats f) = f.
Proof.
  intros Hs. unfold accept. rewrite bind_pure by apply pure_get.
  unfold selected in Hs. change (o_res (get_ (λ f0, changes e f0 ub inc) f)) with (changes e f ub inc).
  destruct (changes e f ub inc) as [all|er]; [|inversion Hs]. cbn [rbind] in Hs. injection Hs as Hs.
  cbv zeta. rewrite Hs. auto.
Qed.
Lemma accept_unlisted (e : env) (f : fs) (ub : path) (inc : bool) (pats : list string) (er : err) :
  selected e f ub inc pats = Err er → accept e ub inc pats f = Out [] f (Err er).
Proof.
  unfold selected. destruct (changes e f ub inc) as [all|er'] eqn:E; cbn [rbind]; intros H; inversion H; subst.
  by apply accept_no_changes.
Qed.

(** ** C06: accepted changes leave the sandbox, always *)
(** *** Where listed changes come from *)
Lemma rmap_inv {A B : Type} (g : A → res B) (l : list A) (ys : list B) : rmap g l = Ok ys →
  ∀ y, y ∈ ys → ∃ x, x ∈ l ∧ g x = Ok y.
Proof.
  revert ys. induction l as [|x l IH]; intros ys; cbn [rmap].
  - intros [= <-] y Hy. by apply elem_of_nil in Hy.
  - destruct (g x) as [z|er] eqn:Eg; cbn [rbind]; [|intros H; inversion H].
    destruct (rmap g l) as [zs|er] eqn:Er; cbn [rbind]; [|intros H; inversion H].
    intros [= <-] y Hy. apply elem_of_cons in Hy as [-> |Hy].
    + exists x. split; [left|exact Eg].
    + destruct (IH zs eq_refl y Hy) as (x' & Hx' & Hg). exists x'. split; [by right|exact Hg].
Qed.

(** A staged entry found by the walk over the upper directories: directory [enc], which decodes to
    the mount point [base], entry [sub] below it, with attributes [ud]. *)
Definition walked (f : fs) (ub : path) (enc : string) (base sub : path) (ud : details) : Prop :=
  (ub ++ enc :: sub) ∈ walkdir f ub ∧ decode_base enc = Some base ∧ sub ≠ [] ∧
  from_path f (ub ++ enc :: sub) = Ok (Some ud).

Lemma upper_entry_walked (e : env) (f : fs) (ub : path) (inc : bool) (p : path) (c c' : cache) (x : upper_entry) :
  p ∈ walkdir f ub → upper_entry_of e f ub inc p c = (Ok (Some x), c') →
  ∃ enc base sub, walked f ub enc base sub (ue_details x) ∧ ue_lower x = base ++ sub ∧
    ue_upper x = ub ++ enc :: sub ∧ get_source f (ub ++ [enc]) base sub = Ok (ue_source x) ∧
    match ue_source x with Some sp => from_path f sp = Ok (ue_source_details x) | None => ue_source_details x = None end.
Proof.
  intros Hp. unfold upper_entry_of. destruct (path_strip ub p) as [[|enc sub]|] eqn:Es; [intros H; inversion H| |intros H; inversion H].
  apply path_strip_spec in Es as ->.
  destruct (decode_base enc) as [base|] eqn:Ed; [|intros H; inversion H].
  destruct sub as [|x0 sub]; [intros H; inversion H|].
  destruct (if inc then (Ok false, c) else is_ignored (e_glob e) f ub enc base (x0 :: sub) c) as [ig c1].
  destruct ig as [[|]|er]; [intros H; inversion H| |intros H; inversion H].
  intros H. apply pair_equal_spec in H as [H _]. revert H.
  rewrite <-app_assoc. cbn [app].
  destruct (get_source f (ub ++ [enc]) base (x0 :: sub)) as [src|er] eqn:Eg; cbn [rbind]; [|intros H; inversion H].
  destruct (match src with Some sp => from_path f sp | None => Ok None end) as [sd|er] eqn:Esd; cbn [rbind]; [|intros H; inversion H].
  destruct (from_path f (ub ++ enc :: x0 :: sub)) as [[ud|]|er] eqn:Eu; cbn [rbind]; [|intros H; inversion H|intros H; inversion H].
  intros [= <-]. cbn [ue_details ue_lower ue_upper ue_source ue_source_details].
  exists enc, base, (x0 :: sub). split.
  { split; [exact Hp|]. split; [exact Ed|]. split; [intros Hx; inversion Hx|exact Eu]. }
  split; [reflexivity|]. split; [reflexivity|]. split; [exact Eg|].
  destruct src as [sp|]; [exact Esd|]. congruence.
Qed.

Lemma upper_entries_walked (e : env) (f : fs) (ub : path) (inc : bool) (ps : list path) (c : cache) (es : list upper_entry) :
  (∀ p, p ∈ ps → p ∈ walkdir f ub) → upper_entries_loop e f ub inc ps c = Ok es →
  ∀ x, x ∈ es → ∃ enc base sub, walked f ub enc base sub (ue_details x) ∧ ue_lower x = base ++ sub ∧
    ue_upper x = ub ++ enc :: sub ∧ get_source f (ub ++ [enc]) base sub = Ok (ue_source x) ∧
    match ue_source x with Some sp => from_path f sp = Ok (ue_source_details x) | None => ue_source_details x = None end.
Proof.
  revert c es. induction ps as [|p ps IH]; intros c es Hps; cbn [upper_entries_loop].
  - intros [= <-] x Hx. by apply elem_of_nil in Hx.
  - destruct (upper_entry_of e f ub inc p c) as [r c'] eqn:Er.
    destruct r as [oe|er]; cbn [rbind]; [|intros H; inversion H].
    destruct (upper_entries_loop e f ub inc ps c') as [es'|er] eqn:El; cbn [rbind]; [|intros H; inversion H].
    intros [= <-] x Hx.
    assert (∀ y, y ∈ es' → y = x → ∃ enc base sub, walked f ub enc base sub (ue_details x) ∧ ue_lower x = base ++ sub ∧
      ue_upper x = ub ++ enc :: sub ∧ get_source f (ub ++ [enc]) base sub = Ok (ue_source x) ∧
      match ue_source x with Some sp => from_path f sp = Ok (ue_source_details x) | None => ue_source_details x = None end) as Hrest.
    { intros y Hy ->. apply (IH c' es'); [intros q Hq; apply Hps; by right|exact El|exact Hy]. }
    destruct oe as [y|]; [|by apply (Hrest x Hx)].
    apply elem_of_cons in Hx as [-> |Hx]; [|by apply (Hrest x Hx)].
    apply (upper_entry_walked e f ub inc p c c'); [apply Hps; left|exact Er].
Qed.

(** What a change listed for a staged entry looks like. *)
Definition removal_of (f : fs) (ud : details) (sp : path) (c : change) : Prop :=
  c_op c = ORemove ∧ (is_opaque f ud = true ∨ is_removed f ud = true ∨ (d_is_dir ud = false ∧ is_dir f sp = true)) ∧
  (c_dest c = sp ∨ (is_dir f sp = true ∧ c_dest c ∈ walkdir f sp)) ∧
  (c_staged c = None ∨ c_staged c = Some ud) ∧ (c_dest c = sp → c_staged c = Some ud) ∧
  from_path f (c_dest c) = Ok (c_source c) ∧
  (is_dir f sp = true → is_Some (c_source c)).
Definition setting_of (f : fs) (ud : details) (dest : path) (sd : option details) (c : change) : Prop :=
  c_op c ≠ ORemove ∧ c_dest c = dest ∧ c_staged c = Some ud ∧ is_removed f ud = false ∧
  match c_op c with
  | ORename => is_Some sd ∧ c_source c = sd ∧ (∃ r, is_renamed f ud = Ok (Some r))
  | OError RedirectPathNotFound => sd = None ∧ c_source c = None ∧ (∃ r, is_renamed f ud = Ok (Some r))
  | OError UnsupportedFileType => c_source c = sd ∧ is_renamed f ud = Ok None ∧
      d_is_file ud = false ∧ d_is_dir ud = false ∧ d_is_symlink ud = false
  | OSet _ => c_source c = sd ∧ is_renamed f ud = Ok None ∧
      (d_is_file ud = true ∨ d_is_dir ud = true ∨ d_is_symlink ud = true)
  | ORemove => False
  end.

Lemma from_path_inv (f : fs) (p : path) (d : details) : from_path f p = Ok (Some d) →
  ∃ n, lstat f p = Ok n ∧ d = details_of p n.
Proof.
  unfold from_path. destruct (lstat f p) as [n|[]]; intros H; inversion H. exists n. auto.
Qed.

Theorem listed_origin (e : env) (f : fs) (ub : path) (inc : bool) (cs : list change) :
  env_ok e → changes e f ub inc = Ok cs → ∀ c, c ∈ cs →
  ∃ enc base sub ud src, walked f ub enc base sub ud ∧ get_source f (ub ++ [enc]) base sub = Ok src ∧ c_tmp c = None ∧
    ((∃ sp, src = Some sp ∧ removal_of f ud sp c) ∨
     ∃ sd, match src with Some sp => from_path f sp = Ok sd | None => sd = None end ∧ setting_of f ud (base ++ sub) sd c).
Proof.
  intros He H c Hc. unfold changes in H.
  destruct (upper_entries e f ub inc) as [es|er] eqn:Ees; cbn [rbind] in H; [|inversion H].
  destruct (renamed_paths f es) as [rp|er]; cbn [rbind] in H; [|inversion H].
  destruct (rmap (entry_changes e f rp) es) as [css|er] eqn:Er; cbn [rbind] in H; [|inversion H].
  injection H as <-. apply elem_of_list_join in Hc as (l & Hc & Hl).
  destruct (rmap_inv _ _ _ Er l Hl) as (x & Hx & Hg).
  unfold upper_entries in Ees.
  destruct (upper_entries_walked e f ub inc (e_ord e (walkdir f ub)) ∅ es ltac:(intros p Hp; by rewrite (He _) in Hp) Ees x Hx)
    as (enc & base & sub & Hw & Hlo & Hup & Hsrc & Hsd).
  exists enc, base, sub, (ue_details x), (ue_source x). split; [exact Hw|]. split; [exact Hsrc|].
  unfold entry_changes in Hg. rewrite Hup in Hg. rewrite (proj2 (proj2 (proj2 Hw))) in Hg. cbn [rbind] in Hg.
  destruct (remove_changes e f rp x) as [rs|er] eqn:Erc; cbn [rbind] in Hg; [|inversion Hg].
  destruct (set_changes f x (ue_details x)) as [ss|er] eqn:Esc; cbn [rbind] in Hg; [|inversion Hg].
  injection Hg as <-. apply elem_of_app in Hc as [Hc|Hc].
  - unfold remove_changes in Erc.
    set (sid := match ue_source x with Some sp => is_dir f sp | None => false end) in *.
    destruct (is_opaque f (ue_details x) || is_removed f (ue_details x) || (negb (d_is_dir (ue_details x)) && sid)) eqn:Et;
      [|injection Erc as <-; by apply elem_of_nil in Hc].
    destruct (ue_source x) as [sp|] eqn:Esp; [|injection Erc as <-; by apply elem_of_nil in Hc].
    assert (is_opaque f (ue_details x) = true ∨ is_removed f (ue_details x) = true ∨
      (d_is_dir (ue_details x) = false ∧ is_dir f sp = true)) as Ht.
    { unfold sid in Et. rewrite !orb_true_iff, andb_true_iff, negb_true_iff in Et. tauto. }
    case_decide; [injection Erc as <-; by apply elem_of_nil in Hc|].
    assert (is_dir f sp = true ∨ is_dir f sp = false) as [Edir|Edir]
      by (destruct (is_dir f sp); [by left|by right]); rewrite Edir in Erc.
    + unfold remove_walk in Erc. destruct (rmap_inv _ _ _ Erc c Hc) as (p & Hp & Hgp).
      rewrite (He _) in Hp. destruct (from_path f p) as [[d|]|er] eqn:Efp; cbn [rbind] in Hgp; [|inversion Hgp|inversion Hgp].
      injection Hgp as <-. cbn [c_tmp]. split; [reflexivity|]. left. exists sp. split; [reflexivity|].
      split; [reflexivity|]. split; [exact Ht|]. cbn [c_dest c_staged c_source].
      split; [by right|]. split; [case_decide; auto|]. split; [intros ->; by rewrite decide_True|].
      split; [exact Efp|]. intros _. by exists d.
    + injection Erc as <-. apply elem_of_list_singleton in Hc as ->. cbn [c_tmp]. split; [reflexivity|].
      left. exists sp. split; [reflexivity|]. split; [reflexivity|]. split; [exact Ht|]. cbn [c_dest c_staged c_source].
      split; [by left|]. split; [by right|]. split; [reflexivity|]. split; [exact Hsd|]. intros Hx0; congruence.
  - unfold set_changes in Esc.
    destruct (is_removed f (ue_details x)) eqn:Erm; [injection Esc as <-; by apply elem_of_nil in Hc|].
    assert (∀ c', c = c' → c_tmp c' = None → c_op c' ≠ ORemove → c_dest c' = ue_lower x → c_staged c' = Some (ue_details x) →
      match c_op c' with
      | ORename => is_Some (ue_source_details x) ∧ c_source c' = ue_source_details x ∧ (∃ r, is_renamed f (ue_details x) = Ok (Some r))
      | OError RedirectPathNotFound => ue_source_details x = None ∧ c_source c' = None ∧ (∃ r, is_renamed f (ue_details x) = Ok (Some r))
      | OError UnsupportedFileType => c_source c' = ue_source_details x ∧ is_renamed f (ue_details x) = Ok None ∧
          d_is_file (ue_details x) = false ∧ d_is_dir (ue_details x) = false ∧ d_is_symlink (ue_details x) = false
      | OSet _ => c_source c' = ue_source_details x ∧ is_renamed f (ue_details x) = Ok None ∧
          (d_is_file (ue_details x) = true ∨ d_is_dir (ue_details x) = true ∨ d_is_symlink (ue_details x) = true)
      | ORemove => False
      end → c_tmp c = None ∧ ((∃ sp, ue_source x = Some sp ∧ removal_of f (ue_details x) sp c) ∨
        ∃ sd, match ue_source x with Some sp => from_path f sp = Ok sd | None => sd = None end ∧
              setting_of f (ue_details x) (base ++ sub) sd c)) as Hdone.
    { intros c' -> H1 H2 H3 H4 H5. split; [exact H1|]. right. exists (ue_source_details x). split; [exact Hsd|].
      split; [exact H2|]. split; [by rewrite <-Hlo|]. split; [exact H4|]. split; [exact Erm|exact H5]. }
    destruct (is_renamed f (ue_details x)) as [[r|]|er] eqn:Ern; cbn [rbind] in Esc; [| |inversion Esc].
    + destruct (ue_source_details x) as [sd|] eqn:Esd; injection Esc as <-; apply elem_of_list_singleton in Hc;
        apply (Hdone _ Hc); try reflexivity; try (intros Hx0; inversion Hx0); cbn [c_op c_source];
        (split; [try reflexivity; by exists sd|]); (split; [reflexivity|]); by exists r.
    + destruct (negb _ && negb _ && negb _) eqn:Ek; injection Esc as <-; apply elem_of_list_singleton in Hc;
        apply (Hdone _ Hc); try reflexivity; try (intros Hx0; inversion Hx0); cbn [c_op c_source];
        (split; [reflexivity|]); (split; [reflexivity|]); unfold d_is_file, d_is_dir, d_is_symlink.
      * rewrite !andb_true_iff, !negb_true_iff in Ek. tauto.
      * rewrite !andb_false_iff, !negb_false_iff in Ek. tauto.
Qed.

(** Every staged path a listing names leads to something. *)
Lemma listed_staged (e : env) (f : fs) (ub : path) (inc : bool) (cs : list change) : env_ok e →
  changes e f ub inc = Ok cs → ∀ c d, c ∈ cs → c_staged c = Some d → ∃ n, lstat f (d_path d) = Ok n.
Proof.
  intros He H c d Hc Hd.
  destruct (listed_origin e f ub inc cs He H c Hc) as (enc & base & sub & ud & src & (_ & _ & _ & Hw) & _ & _ & Hcase).
  assert (d = ud) as ->.
  { destruct Hcase as [(sp & _ & Hr)|(sd & _ & Hs)].
    - destruct Hr as (_ & _ & _ & [Hn|Hs] & _); congruence.
    - destruct Hs as (_ & _ & Hs & _). congruence. }
  destruct (from_path_inv _ _ _ Hw) as (n & Hn & ->). exists n. exact Hn.
Qed.

Theorem C06_accepted_changes_leave : ∀ (e : env) (f : fs) (ub : path) (inc : bool) (pats : list string) (sel : list change),
  env_ok e → selected e f ub inc pats = Ok sel →
  let o := accept e ub inc pats f in is_ok (o_res o) = true →
  ∀ c d, c ∈ sel → c_staged c = Some d →
    (∃ n, lstat f (d_path d) = Ok n) ∧ (∃ er, lstat (o_fs o) (d_path d) = Err er) ∧
    ∀ e' inc' cs', env_ok e' → changes e' (o_fs o) ub inc' = Ok cs' →
      ∀ c' d', c' ∈ cs' → c_staged c' = Some d' → d_path d' ≠ d_path d.
Proof.
  intros e f ub inc pats sel He Hsel o Hok c d Hc Hd.
  assert (gone (o_fs o) (d_path d)) as Hgone.
  { destruct (accept_passes e f ub inc pats sel Hsel) as [[er Her]|(r1 & H1 & _ & Hf & Hr)].
    - intros ->. by apply elem_of_nil in Hc.
    - unfold o in Hok. rewrite Her in Hok. inversion Hok.
    - unfold o in *. rewrite Hf. rewrite Hr in Hok.
      destruct (o_res (accept_pass e 2 false r1.2 f)) as [r2|er] eqn:E2; [|inversion Hok].
      destruct (pass_list e 0 sel) as [Hl _]. destruct (Hl c Hc) as (c' & Hc' & _ & Hs & _).
      rewrite <-(pass_result e 0 true sel f r1 H1) in Hc'.
      apply (pass_clean e 2 r1.2 f r2 E2 c' d Hc'). by rewrite Hs. }
  split; [|split; [exact Hgone|]].
  - unfold selected in Hsel. destruct (changes e f ub inc) as [all|er] eqn:Ec; cbn [rbind] in Hsel; [|inversion Hsel].
    injection Hsel as <-. unfold matching in Hc. apply elem_of_list_filter in Hc as [_ Hc].
    exact (listed_staged e f ub inc all He Ec c d Hc Hd).
  - intros e' inc' cs' He' Hcs' c' d' Hc' Hd' Heq.
    destruct (listed_staged e' (o_fs o) ub inc' cs' He' Hcs' c' d' Hc' Hd') as [n Hn].
    destruct Hgone as [er Her]. rewrite Heq in Hn. rewrite Her in Hn. inversion Hn.
Qed.
Print Assumptions C06_accepted_changes_leave.

(** ** C04: no file is ever seen half-written under its own name *)

(** The name ends like the temporary names accept uses for copies. *)
Definition temp_name (e : env) (x : string) : Prop := ∃ i, ends_with ("." +:+ e_uuid e 3 i) x = true.
(** [c] is the complete content of a regular file that existed before. *)
Definition complete_content (f : fs) (c : string) : Prop := ∃ p n, f !! p = Some n ∧ n_kind n = KFile c.

(** Between two system calls other than those copying a file. *)
Definition calm (e : env) (f s : fs) : Prop :=
  (∀ p n c, s !! p = Some n → n_kind n = KFile c → complete_content f c) ∧
  (∀ p x n t, s !! (p ++ [x]) = Some n → n_kind n = KLink t → ¬ temp_name e x).
(** At any moment. *)
Definition whole (e : env) (f s : fs) : Prop :=
  ∀ p n c, s !! p = Some n → n_kind n = KFile c →
    complete_content f c ∨ ∃ q x, p = q ++ [x] ∧ temp_name e x.
Lemma calm_whole (e : env) (f s : fs) : calm e f s → whole e f s.
Proof. intros [H _] p n c Hp Hk. left. by eapply H. Qed.

Definition plain (x : string) : Prop := x ≠ "" ∧ x ≠ "." ∧ x ≠ "..".

(** The last component of a path is kept by a lookup, unless a link bearing that name is followed. *)
Lemma walk_last (n : nat) (s : fs) (follow : bool) (cur : path) (todo : list string) (x : string) (q : path) :
  plain x → walk n s follow cur (todo ++ [x]) = Ok q →
  (∃ d, q = d ++ [x]) ∨ (follow = true ∧ ∃ d nd t, s !! (d ++ [x]) = Some nd ∧ n_kind nd = KLink t).
Proof.
  intros (Hx1 & Hx2 & Hx3). revert cur todo.
  induction n as [n IHn] using lt_wf_ind. intros cur todo. revert cur.
  induction todo as [|c rest IH]; intros cur.
  - cbn [app]. rewrite walk_cons.
    destruct (String.eqb_spec x ""); [done|]. destruct (String.eqb_spec x "."); [done|].
    destruct (String.eqb_spec x ".."); [done|]. cbn [orb].
    destruct (s !! cur) as [d|]; [|intros H; inversion H]. destruct (is_kdir (n_kind d)); [|intros H; inversion H].
    destruct (s !! (cur ++ [x])) as [nd|] eqn:En; [|intros [= <-]; left; by exists cur].
    destruct (n_kind nd) eqn:Ek; try (rewrite walk_nil; intros [= <-]; left; by exists cur).
    destruct follow; [|intros [= <-]; left; by exists cur].
    intros _. right. split; [reflexivity|]. exists cur, nd, target. auto.
  - cbn [app]. rewrite walk_cons. destruct (String.eqb c "" || String.eqb c "."); [by apply IH|].
    destruct (String.eqb c ".."); [by apply IH|].
    destruct (s !! cur) as [d|]; [|intros H; inversion H]. destruct (is_kdir (n_kind d)); [|intros H; inversion H].
    destruct (s !! (cur ++ [c])) as [nd|] eqn:En.
    + destruct (n_kind nd) eqn:Ek; try by apply IH.
      assert (match n with
              | 0 => Err ELOOP
              | S n' => walk n' s follow (if is_abs target then [] else cur) (split_on "/" target ++ rest ++ [x])
              end = Ok q → (∃ d, q = d ++ [x]) ∨
              (follow = true ∧ ∃ d nd t, s !! (d ++ [x]) = Some nd ∧ n_kind nd = KLink t)) as Hl.
      { destruct n as [|n']; [intros H; inversion H|]. rewrite app_assoc. apply IHn. lia. }
      destruct (rest ++ [x]) eqn:Er; [by destruct rest|]. exact Hl.
    + destruct (rest ++ [x]) eqn:Er; [by destruct rest|]. intros H; inversion H.
Qed.
Lemma lookup_l_last (s : fs) (p : path) (x : string) (q : path) : plain x → lookup_l s (p ++ [x]) = Ok q → ∃ d, q = d ++ [x].
Proof.
  intros Hx H. unfold lookup_l in H. destruct (walk_last _ _ _ _ _ _ _ Hx H) as [|[Hf _]]; [assumption|discriminate Hf].
Qed.

Section calm_ops.
  Context (e : env) (f : fs).
  #[local] Notation J := (calm e f).
  #[local] Notation I := (whole e f).

  Definition keeps_calm {A : Type} (m : M A) : Prop := triple I J m (λ _, J).

  Lemma kc_ret {A : Type} (a : A) : keeps_calm (ret_ a).
  Proof. apply triple_ret; [apply calm_whole|done]. Qed.
  Lemma kc_throw {A : Type} (er : err) : keeps_calm (throw er : M A).
  Proof. apply triple_throw. apply calm_whole. Qed.
  Lemma kc_get {A : Type} (r : fs → res A) : keeps_calm (get_ r).
  Proof. apply triple_get; [apply calm_whole|done]. Qed.
  Lemma kc_bind {A B : Type} (m : M A) (k : A → M B) : keeps_calm m → (∀ a, keeps_calm (k a)) → keeps_calm (bind_ m k).
  Proof. intros Hm Hk. eapply triple_bind with (Q := λ _, J); [exact Hm|exact Hk]. Qed.
  Lemma kc_for {A : Type} (l : list A) (g : A → M unit) : (∀ x, x ∈ l → keeps_calm (g x)) → keeps_calm (for_ l g).
  Proof.
    induction l as [|x l IH]; intros H; cbn [for_]; [apply kc_ret|].
    apply kc_bind; [apply H; left|]. intros _. apply IH. intros y Hy. apply H. by right.
  Qed.
  Lemma kc_accum {A : Type} (l : list A) (g : A → M (nat * list path)) : (∀ x, x ∈ l → keeps_calm (g x)) → keeps_calm (accum l g).
  Proof.
    induction l as [|x l IH]; intros H; cbn [accum]; [apply kc_ret|].
    apply kc_bind; [apply H; left|]. intros r. apply kc_bind; [|intros r'; apply kc_ret].
    apply IH. intros y Hy. apply H. by right.
  Qed.

  Lemma calm_sub (s s' : fs) : s' ⊆ s → J s → J s'.
  Proof.
    intros Hsub [H1 H2]. split.
    - intros p n c Hp. apply (H1 p n c). by eapply lookup_weaken.
    - intros p x n t Hp. apply (H2 p x n t). by eapply lookup_weaken.
  Qed.

  (** A modifying call that fails or leaves one new state. *)
  Lemma kc_step (m : M unit) : (∀ s, J s → (∃ er, m s = fail_ s er) ∨ ∃ s', m s = emit s' ∧ J s') → keeps_calm m.
  Proof.
    intros H s Hs. destruct (H s Hs) as [[er ->]|(s' & -> & Hs')]; cbn.
    - split; [constructor|]. split; [by apply calm_whole|]. intros a Ha. inversion Ha.
    - split; [constructor; [by apply calm_whole|constructor]|]. split; [by apply calm_whole|]. intros _ _. exact Hs'.
  Qed.

  Lemma kc_unlink (p : path) : keeps_calm (sys_unlink p).
  Proof.
    apply kc_step. intros s Hs. unfold sys_unlink. destruct (lookup_l s p) as [q|er]; [|left; by eexists].
    destruct (s !! q) as [n|]; [|left; by eexists]. destruct (is_kdir (n_kind n)); [left; by eexists|].
    right. eexists. split; [reflexivity|]. eapply calm_sub; [|exact Hs]. apply delete_subseteq.
  Qed.
  Lemma kc_rmdir (p : path) : keeps_calm (sys_rmdir p).
  Proof.
    apply kc_step. intros s Hs. unfold sys_rmdir. destruct (lookup_l s p) as [q|er]; [|left; by eexists].
    destruct (s !! q) as [n|]; [|left; by eexists]. destruct (is_kdir (n_kind n)); [|left; by eexists].
    destruct q as [|x q]; [left; by eexists|]. case_decide; [|left; by eexists].
    destruct (below s (x :: q)); [|left; by eexists].
    right. eexists. split; [reflexivity|]. eapply calm_sub; [|exact Hs]. apply delete_subseteq.
  Qed.
  Lemma kc_rmdir_recursive (fuel : nat) (ord : list path → list path) (p : path) : keeps_calm (rmdir_recursive fuel ord p).
  Proof.
    revert p. induction fuel as [|n IH]; intros p; cbn [rmdir_recursive]; [apply kc_throw|].
    apply kc_bind; [apply kc_get|]. intros root. apply kc_bind; [apply kc_get|]. intros names.
    apply kc_bind; [|intros _; apply kc_rmdir].
    apply kc_for. intros ep _. apply kc_bind; [apply kc_get|]. intros st.
    destruct (negb (N.eqb (n_dev st) (n_dev root))); [apply kc_throw|].
    destruct (is_kdir (n_kind st)); [apply IH|apply kc_unlink].
  Qed.
  Lemma kc_clean_one (p : path) : keeps_calm (clean_one e p).
  Proof.
    unfold clean_one. apply kc_bind; [apply kc_get|]. intros [|]; [|apply kc_unlink].
    intros s Hs. unfold rmdir_rec. exact (kc_rmdir_recursive _ _ _ s Hs).
  Qed.

  (** Writing a node that is neither a file nor a link, or changing the attributes of a node. *)
  Lemma calm_insert (s : fs) (q : path) (n : node) : J s →
    (∀ c, n_kind n = KFile c → complete_content f c) →
    (∀ p x t, q = p ++ [x] → n_kind n = KLink t → ¬ temp_name e x) → J (<[q := n]> s).
  Proof.
    intros [H1 H2] Hn Hl. split.
    - intros p m c Hp Hk. destruct (decide (p = q)) as [-> |Hne].
      + rewrite lookup_insert in Hp. injection Hp as <-. by apply Hn.
      + rewrite lookup_insert_ne in Hp by congruence. by eapply H1.
    - intros p x m t Hp Hk. destruct (decide (p ++ [x] = q)) as [<- |Hne].
      + rewrite lookup_insert in Hp. injection Hp as <-. by eapply Hl.
      + rewrite lookup_insert_ne in Hp by congruence. by eapply H2.
  Qed.
  Lemma calm_same_kind (s : fs) (q : path) (n n' : node) : J s → s !! q = Some n → n_kind n' = n_kind n → J (<[q := n']> s).
  Proof.
    intros Hs Hq Hk. apply calm_insert; [exact Hs| |].
    - intros c Hc. destruct Hs as [H1 _]. apply (H1 q n c Hq). congruence.
    - intros p x t -> Ht. destruct Hs as [_ H2]. apply (H2 p x n t Hq). congruence.
  Qed.
  Lemma kc_lchown (p : path) (u g : N) : keeps_calm (sys_lchown p u g).
  Proof.
    apply kc_step. intros s Hs. unfold sys_lchown. destruct (lookup_l s p) as [q|er]; [|left; by eexists].
    destruct (s !! q) as [n|] eqn:En; [|left; by eexists]. right. eexists. split; [reflexivity|].
    by eapply calm_same_kind.
  Qed.
  Lemma kc_lchmod (p : path) (m : N) : keeps_calm (sys_lchmod p m).
  Proof.
    apply kc_step. intros s Hs. unfold sys_lchmod. destruct (lookup_l s p) as [q|er]; [|left; by eexists].
    destruct (s !! q) as [n|] eqn:En; [|left; by eexists]. destruct (is_klink (n_kind n)); [left; by eexists|].
    right. eexists. split; [reflexivity|]. by eapply calm_same_kind.
  Qed.
  Lemma kc_set_permissions (p : path) (d : details) : keeps_calm (set_permissions p d).
  Proof.
    unfold set_permissions. apply kc_bind; [apply kc_lchown|]. intros _.
    destruct (N.eqb (N.land (d_mode d) S_IFMT) S_IFLNK); [apply kc_ret|apply kc_lchmod].
  Qed.
  Lemma kc_mkdir (um : N) (p : path) : keeps_calm (sys_mkdir um p).
  Proof.
    apply kc_step. intros s Hs. unfold sys_mkdir. destruct (lookup_l s p) as [q|er]; [|left; by eexists].
    destruct (s !! q) as [n|]; [left; by eexists|]. right. eexists. split; [reflexivity|].
    apply calm_insert; [exact Hs| |]; cbn [n_kind]; intros; discriminate.
  Qed.
  Lemma kc_symlink (t : string) (p : path) (x : string) : plain x → ¬ temp_name e x → keeps_calm (sys_symlink t (p ++ [x])).
  Proof.
    intros Hx Ht. apply kc_step. intros s Hs. unfold sys_symlink.
    destruct (lookup_l s (p ++ [x])) as [q|er] eqn:El; [|left; by eexists].
    destruct (s !! q) as [n|]; [left; by eexists|]. right. eexists. split; [reflexivity|].
    destruct (lookup_l_last s p x q Hx El) as [d ->].
    apply calm_insert; [exact Hs| |]; cbn [n_kind]; [intros; discriminate|].
    intros p' x' t' Heq _. apply app_inj_tail in Heq as [_ <-]. exact Ht.
  Qed.

  Lemma calm_moved (s : fs) (o n : path) (d : path) (x : string) : J s → n = d ++ [x] → ¬ temp_name e x →
    under o n = false → under n o = false → J (moved s o n).
  Proof.
    intros [H1 H2] -> Hx Hon Hno. split.
    - intros p m c Hp Hk. rewrite lookup_moved in Hp by assumption.
      destruct (path_strip (d ++ [x]) p) as [r|]; [by eapply H1|].
      destruct (under o p); [discriminate Hp|]. by eapply H1.
    - intros p y m t Hp Hk. rewrite lookup_moved in Hp by assumption.
      destruct (path_strip (d ++ [x]) (p ++ [y])) as [r|] eqn:Es.
      + apply path_strip_spec in Es. destruct (path_snoc_case r) as [-> |(r' & z & ->)].
        * rewrite app_nil_r in Es. apply app_inj_tail in Es as [_ ->]. exact Hx.
        * rewrite app_assoc in Es. apply app_inj_tail in Es as [_ ->].
          rewrite app_assoc in Hp. by eapply H2.
      + destruct (under o (p ++ [y])); [discriminate Hp|]. by eapply H2.
  Qed.
  Lemma kc_rename (o n : path) (x : string) : plain x → ¬ temp_name e x → keeps_calm (sys_rename o (n ++ [x])).
  Proof.
    intros Hx Ht. apply kc_step. intros s Hs. unfold sys_rename.
    destruct (lookup_l s o) as [co|er]; [|left; by eexists].
    destruct (lookup_l s (n ++ [x])) as [cn|er] eqn:El; [|left; by eexists].
    destruct (lookup_l_last s n x cn Hx El) as [d ->].
    destruct (s !! co) as [on|]; [|left; by eexists].
    case_decide; [right; eexists; split; [reflexivity|exact Hs]|].
    destruct (under co (d ++ [x])) eqn:E1; [left; by eexists|].
    destruct (under (d ++ [x]) co) eqn:E2; [left; by eexists|].
    destruct (negb (N.eqb (parent_dev s co) (parent_dev s (d ++ [x])))); [left; by eexists|].
    destruct (negb (N.eqb (n_dev on) (parent_dev s co))); [left; by eexists|].
    assert (J (moved s co (d ++ [x]))) as Hm by exact (calm_moved s co (d ++ [x]) d x Hs eq_refl Ht E1 E2).
    destruct (s !! (d ++ [x])) as [nn|].
    - destruct (is_kdir (n_kind on)).
      + destruct (is_kdir (n_kind nn)); [|left; by eexists].
        destruct (below s (d ++ [x])); [|left; by eexists].
        destruct (N.eqb (n_dev nn) (parent_dev s (d ++ [x]))); [right; eexists; split; [reflexivity|exact Hm]|left; by eexists].
      + destruct (is_kdir (n_kind nn)); [left; by eexists|]. right; eexists; split; [reflexivity|exact Hm].
    - right; eexists; split; [reflexivity|exact Hm].
  Qed.

  (** Copying to a temporary name. *)
  Lemma kc_copy (um : N) (src p : path) (x : string) : plain x → temp_name e x → keeps_calm (sys_copy um src (p ++ [x])).
  Proof.
    intros Hx Ht s Hs. unfold sys_copy.
    assert (∀ er : err, Forall I (o_trace (fail_ (A := unit) s er)) ∧ I (o_fs (fail_ (A := unit) s er)) ∧
      ∀ a, o_res (fail_ (A := unit) s er) = Ok a → J (o_fs (fail_ (A := unit) s er))) as Hfail.
    { intros er. cbn. split; [constructor|]. split; [by apply calm_whole|]. intros a Ha. inversion Ha. }
    destruct (stat s src) as [sn|er] eqn:Est; [|apply Hfail].
    destruct (n_kind sn) as [content| | | | | |] eqn:Ek; try apply Hfail.
    destruct (lookup_f s (p ++ [x])) as [q|er] eqn:El; [|apply Hfail].
    assert (complete_content f content) as Hcc.
    { unfold stat in Est. destruct (lookup_f s src) as [cs|er]; cbn [rbind] in Est; [|inversion Est].
      destruct (s !! cs) as [m|] eqn:Em; [|inversion Est]. injection Est as ->.
      destruct Hs as [H1 _]. exact (H1 cs sn content Em Ek). }
    assert (∃ d, q = d ++ [x]) as [d ->].
    { unfold lookup_f in El. destruct (walk_last _ _ _ _ _ _ _ Hx El) as [|[_ (d & nd & t & Hd & Hk)]]; [assumption|].
      destruct Hs as [_ H2]. destruct (H2 d x nd t Hd Hk Ht). }
    assert (∀ m, I (<[d ++ [x] := m]> s)) as Hany.
    { intros m p' n' c' Hp' Hk'. destruct (decide (p' = d ++ [x])) as [-> |Hne].
      - right. exists d, x. auto.
      - rewrite lookup_insert_ne in Hp' by congruence. left. destruct Hs as [H1 _]. by eapply H1. }
    assert (∀ m, J (<[d ++ [x] := set_content m content]> s)) as Hfin.
    { intros m. apply calm_insert; [exact Hs| |].
      - cbn [set_content n_kind]. intros c [= <-]. exact Hcc.
      - cbn [set_content n_kind]. intros; discriminate. }
    assert (∀ n0 : node,
      let o := (let f0 := <[d ++ [x] := n0]> s in
                let n1 := set_perm n0 (n_perm sn) in
                let f1 := <[d ++ [x] := n1]> s in
                let fin := <[d ++ [x] := set_content n1 content]> s in
                Out (f0 :: f1 :: ((λ c, <[d ++ [x] := set_content n1 c]> s) <$> prefixes content)) fin (Ok tt)) in
      Forall I (o_trace o) ∧ I (o_fs o) ∧ ∀ a, o_res o = Ok a → J (o_fs o)) as Hgo.
    { intros n0. cbn [o_trace o_fs o_res]. split.
      - constructor; [apply Hany|]. constructor; [apply Hany|]. apply Forall_fmap, Forall_true. intros c. apply Hany.
      - split; [apply Hany|]. intros _ _. apply Hfin. }
    destruct (s !! (d ++ [x])) as [dn|]; [|apply Hgo].
    destruct (n_kind dn); try apply Hfail. apply Hgo.
  Qed.
End calm_ops.

(** All UUIDs have the same length (36 characters in the program). *)
Definition one_length (e : env) : Prop := ∀ ph i ph' i', String.length (e_uuid e ph i) = String.length (e_uuid e ph' i').

Lemma str_length_app (a b : string) : String.length (a +:+ b) = String.length a + String.length b.
Proof. induction a as [|c a IH]; [reflexivity|]. cbn. by rewrite IH. Qed.
Lemma str_app_inv_length (a b x y : string) : a +:+ x = b +:+ y → String.length x = String.length y → a = b ∧ x = y.
Proof.
  revert b. induction a as [|c a IH]; intros b H Hl.
  - destruct b as [|c b]; [by cbn in H|]. exfalso. cbn in H. rewrite H in Hl. cbn [String.length] in Hl.
    rewrite str_length_app in Hl. lia.
  - destruct b as [|c' b].
    + exfalso. cbn in H. rewrite <-H in Hl. cbn [String.length] in Hl. rewrite str_length_app in Hl. lia.
    + cbn in H. injection H as -> H. destruct (IH b H Hl) as [-> ->]. auto.
Qed.

Lemma rename_name_not_temp (e : env) (a : string) (ph i : nat) : one_length e → ¬ temp_name e (a +:+ "-" +:+ e_uuid e ph i).
Proof.
  intros Hl [j Hj]. apply ends_with_spec in Hj as [t Ht].
  apply str_app_inv_length in Ht as [_ Ht]; [|cbn [String.length]; rewrite !str_length_app; by rewrite (Hl ph i 3 j)].
  cbn in Ht. discriminate Ht.
Qed.

Lemma plain_long (x : string) : 3 ≤ String.length x → plain x.
Proof. intros H. repeat split; intros ->; cbn in H; lia. Qed.
Lemma comp_plain (x : string) : comp_ok x → plain x.
Proof. intros (H1 & H2 & H3 & _). split; [done|]. by split. Qed.

(** Destinations are ordinary names that are not temporary names. *)
Definition good_dest (e : env) (p : path) : Prop := ∃ q x, p = q ++ [x] ∧ comp_ok x ∧ ¬ temp_name e x.

Section pass.
  Context (e : env) (f : fs).
  Context (Hne : ∀ i, e_uuid e 3 i ≠ "") (Hsl : ∀ i, contains "/" (e_uuid e 3 i) = false) (Hlen : one_length e).

  Lemma kc_accept_remove (c : change) : keeps_calm e f (accept_remove false c).
  Proof.
    unfold accept_remove. destruct (c_op c); try apply kc_ret.
    destruct (c_source c) as [s|]; [|apply kc_throw]. apply kc_bind; [|intros _; apply kc_ret].
    destruct (d_is_file s || d_is_symlink s); [apply kc_unlink|].
    destruct (d_is_dir s); [apply kc_rmdir|apply kc_throw].
  Qed.
  Lemma kc_premove (i : nat) (c : change) : keeps_calm e f (accept_premove false (assign_tmp e 2 i c)).
  Proof.
    unfold accept_premove, assign_tmp. destruct (c_op c) eqn:Eo; destruct (c_source c) as [s|] eqn:Es;
      rewrite ?Eo, ?Es; cbn [c_op c_source c_tmp]; try apply kc_ret.
    unfold tmp_name. apply kc_rename.
    - apply plain_long. rewrite !str_length_app. cbn. lia.
    - rewrite !str_app_assoc. rewrite <-(str_app_assoc _ "-"). by apply rename_name_not_temp.
  Qed.
  Lemma kc_accept_set (i : nat) (c : change) : (c_op c ≠ ORemove → good_dest e (c_dest c)) → keeps_calm e f (accept_set e 2 false (i, c)).
  Proof.
    intros Hd. unfold accept_set. destruct (c_op c) as [t| | |er] eqn:Eo; [| |clear Eo|]; [|apply kc_ret| |apply kc_throw].
    - destruct (Hd ltac:(discriminate)) as (q & x & Hq & Hx & Hnt). pose proof (comp_plain x Hx) as Hp.
      destruct (c_staged c) as [st|]; [|apply kc_throw]. rewrite Hq.
      destruct (d_is_file st).
      { rewrite with_extension_snoc. apply kc_bind.
        - apply kc_copy.
          + apply comp_plain. by apply tmp_comp_ok.
          + exists i. apply ends_with_spec. by eexists.
        - intros _. apply kc_bind; [by apply kc_rename|]. intros _.
          apply kc_bind; [apply kc_set_permissions|]. intros _. apply kc_ret. }
      destruct (d_is_symlink st).
      { apply kc_bind; [apply kc_get|]. intros target. apply kc_bind; [apply kc_get|]. intros old.
        apply kc_bind; [destruct old; [apply kc_unlink|apply kc_ret]|]. intros _.
        apply kc_bind; [by apply kc_symlink|]. intros _.
        apply kc_bind; [apply kc_set_permissions|]. intros _. apply kc_ret. }
      destruct (d_is_dir st); [|apply kc_throw].
      apply kc_bind; [apply kc_get|]. intros isd.
      apply kc_bind; [destruct isd; [apply kc_ret|apply kc_mkdir]|]. intros _.
      apply kc_bind; [apply kc_set_permissions|]. intros _. apply kc_ret.
    - destruct (Hd ltac:(discriminate)) as (q & x & Hq & Hx & Hnt). pose proof (comp_plain x Hx) as Hp.
      destruct (c_tmp c) as [t|]; [|apply kc_throw]. rewrite Hq.
      apply kc_bind; [by apply kc_rename|]. intros _. apply kc_ret.
  Qed.

  Lemma kc_pass (cs : list change) : (∀ c, c ∈ cs → c_op c ≠ ORemove → good_dest e (c_dest c)) →
    keeps_calm e f (accept_pass e 2 false cs).
  Proof.
    intros Hcs. unfold accept_pass. apply kc_bind; [apply kc_accum; intros c _; apply kc_accept_remove|].
    intros r1. apply kc_bind.
    { apply kc_for. intros c Hc. apply elem_of_imap_to in Hc as (i & c0 & _ & ->). apply kc_premove. }
    intros _. apply kc_bind.
    { apply kc_accum. intros [i c] Hic. apply elem_of_imap_to in Hic as (i' & c' & Hc' & [= -> ->]).
      apply kc_accept_set. intros Hop. destruct (pass_list e 2 cs) as [_ Hl].
      destruct (Hl c' Hc') as (c0 & Hc0 & Ho & _ & Hdest & _). rewrite Hdest. apply Hcs; [exact Hc0|congruence]. }
    intros r3. apply kc_bind; [|intros _; apply kc_ret].
    unfold clean_up. apply kc_for. intros p _. apply kc_clean_one.
  Qed.
End pass.

(** Names found by a walk are names of the file system. *)
Lemma walkdir_name (f : fs) (root s : path) (x : string) : (root ++ s ++ [x]) ∈ walkdir f root →
  ∃ q, is_Some (f !! (q ++ [x])).
Proof.
  unfold walkdir. destruct (lookup_f f root) as [c|]; [|intros H; by apply elem_of_nil in H].
  destruct (f !! c) as [n|]; [|intros H; by apply elem_of_nil in H].
  destruct (is_kdir (n_kind n)).
  - intros H. apply elem_of_list_omap in H as (k & Hk & Hs).
    destruct (path_strip c k) as [r|] eqn:Er; [|discriminate Hs]. injection Hs as Hs.
    apply app_inv_head in Hs as ->. apply path_strip_spec in Er as ->.
    apply elem_of_keys in Hk. exists (c ++ s). by rewrite <-app_assoc.
  - intros H. apply elem_of_list_singleton in H.
    apply (f_equal length) in H. rewrite !app_length in H. cbn in H. lia.
Qed.

Lemma listed_good_dest (e : env) (f : fs) (ub : path) (inc : bool) (cs : list change) :
  wf_tree f → env_ok e → fresh_uuids e f → changes e f ub inc = Ok cs →
  ∀ c, c ∈ cs → c_op c ≠ ORemove → good_dest e (c_dest c).
Proof.
  intros Hwf He Hfu H c Hc Hop.
  destruct (listed_origin e f ub inc cs He H c Hc) as (enc & base & sub & ud & src & (Hw & _ & Hsub & _) & _ & _ & Hcase).
  destruct Hcase as [(sp & _ & Hr)|(sd & _ & Hs)]; [destruct Hop; apply Hr|].
  destruct Hs as (_ & -> & _). destruct (path_snoc_case sub) as [-> |(s' & x & ->)]; [by destruct Hsub|].
  destruct (walkdir_name f ub (enc :: s') x Hw) as (q & [n Hn]).
  exists (base ++ s'), x. split; [by rewrite app_assoc|]. split; [by eapply wf_comp|].
  intros [i Hi]. rewrite (fu_new e f Hfu i q x) in Hi; [discriminate Hi|by exists n].
Qed.

(** At every moment of every accept every regular file, wherever it is, holds the complete content
    of a file that existed before the accept; the only exception is a file under one of accept's
    temporary names (which no file that existed before bears, [fresh_uuids]). *)
Theorem C04_no_partial_content : ∀ (e : env) (f : fs) (ub : path) (inc : bool) (pats : list string),
  wf_tree f → env_ok e → fresh_uuids e f → one_length e →
  ∀ st, st ∈ states (accept e ub inc pats f) →
  ∀ p n c, st !! p = Some n → n_kind n = KFile c →
    (∃ p' n', f !! p' = Some n' ∧ n_kind n' = KFile c) ∨
    ∃ q x i, p = q ++ [x] ∧ ends_with ("." +:+ e_uuid e 3 i) x = true.
Proof.
  intros e f ub inc pats Hwf He Hfu Hlen st Hst p n c Hp Hk.
  assert (calm e f f) as Hcalm.
  { split.
    - intros p' n' c' Hp' Hk'. by exists p', n'.
    - intros p' x n' t Hp' _ [i Hi]. rewrite (fu_new e f Hfu i p' x) in Hi; [discriminate Hi|by exists n']. }
  assert (whole e f st) as Hw.
  { destruct (selected e f ub inc pats) as [sel|er] eqn:Esel.
    2:{ rewrite (accept_unlisted _ _ _ _ _ _ Esel) in Hst. apply elem_of_list_singleton in Hst as ->. by apply calm_whole. }
    destruct sel as [|c0 sel].
    { destruct (accept_nothing _ _ _ _ _ Esel) as [Ht Hf]. unfold states in Hst. rewrite Ht, Hf in Hst.
      apply elem_of_list_singleton in Hst as ->. by apply calm_whole. }
    destruct (accept_passes e f ub inc pats (c0 :: sel) Esel ltac:(discriminate)) as [[er Her]|(r1 & H1 & Ht & Hf & _)].
    { rewrite Her in Hst. apply elem_of_list_singleton in Hst as ->. by apply calm_whole. }
    assert (keeps_calm e f (accept_pass e 2 false r1.2)) as Hkc.
    { apply kc_pass; [apply (fu_nonempty e f Hfu)|apply (fu_slash e f Hfu)|exact Hlen|].
      intros c' Hc' Hop. rewrite (pass_result e 0 true _ f r1 H1) in Hc'.
      destruct (pass_list e 0 (c0 :: sel)) as [_ Hl]. destruct (Hl c' Hc') as (c1 & Hc1 & Ho & _ & -> & _).
      unfold selected in Esel. destruct (changes e f ub inc) as [all|er] eqn:Ec; cbn [rbind] in Esel; [|inversion Esel].
      injection Esel as Esel. rewrite <-Esel in Hc1. unfold matching in Hc1. apply elem_of_list_filter in Hc1 as [_ Hc1].
      apply (listed_good_dest e f ub inc all Hwf He Hfu Ec c1 Hc1). congruence. }
    destruct (Hkc f Hcalm) as (K1 & K2 & _). unfold states in Hst. rewrite Ht, Hf in Hst.
    apply elem_of_app in Hst as [Hst|Hst].
    - by eapply Forall_forall in K1.
    - apply elem_of_list_singleton in Hst as ->. exact K2. }
  destruct (Hw p n c Hp Hk) as [H|(q & x & -> & [i Hi])]; [by left|]. right. by exists q, x, i.
Qed.
Print Assumptions C04_no_partial_content.

(** ** C12: every listed change is real, with renamed directories, links and any number of mounts *)

(** A path that can be followed can be looked at. *)
Lemma walk_stat_lstat (n : nat) (s : fs) (cur : path) (todo : list string) (q : path) :
  walk n s true cur todo = Ok q → is_Some (s !! q) →
  ∃ q', walk n s false cur todo = Ok q' ∧ is_Some (s !! q').
Proof.
  revert cur todo. induction n as [n IHn] using lt_wf_ind. intros cur todo. revert cur.
  induction todo as [|c rest IH]; intros cur.
  - rewrite !walk_nil. intros [= <-] H. by exists cur.
  - rewrite !walk_cons. destruct (String.eqb c "" || String.eqb c "."); [by apply IH|].
    destruct (String.eqb c ".."); [by apply IH|].
    destruct (s !! cur) as [d|]; [|intros H; inversion H]. destruct (is_kdir (n_kind d)); [|intros H; inversion H].
    destruct (s !! (cur ++ [c])) as [nd|] eqn:En.
    + destruct (n_kind nd) eqn:Ek; try by apply IH.
      destruct rest as [|c' rest].
      * intros _ _. exists (cur ++ [c]). split; [reflexivity|]. by exists nd.
      * destruct n as [|n']; [intros H; inversion H|]. apply IHn. lia.
    + destruct rest; [|intros H; inversion H]. intros [= <-] H. by exists (cur ++ [c]).
Qed.
Lemma stat_lstat (s : fs) (p : path) : is_ok (stat s p) = true → ∃ n, lstat s p = Ok n.
Proof.
  unfold stat, lstat, lookup_f, lookup_l. destruct (walk max_links s true [] p) as [q|er] eqn:E; cbn [rbind]; [|intros H; inversion H].
  destruct (s !! q) as [n|] eqn:En; [|intros H; inversion H]. intros _.
  destruct (walk_stat_lstat _ _ _ _ _ E ltac:(by exists n)) as (q' & -> & [n' Hn']). cbn [rbind]. rewrite Hn'. by exists n'.
Qed.

(** How the source path of an entry is found. *)
Lemma source_exists (f : fs) (u l : path) (rs : list string) (acc : path) (sp : path) :
  source_loop f u l rs acc = Ok (Some sp) → exists_ f sp = true.
Proof.
  assert (∀ p, if_exists f p = Some sp → exists_ f sp = true) as Hif.
  { intros p. unfold if_exists. destruct (exists_ f p) eqn:E; [|intros H; inversion H]. intros [= <-]. exact E. }
  revert acc. induction rs as [|c rs IH]; intros acc; cbn [source_loop].
  - destruct (from_path f (u ++ rev [])) as [[d|]|er]; [| |intros H; inversion H]; intros [= H]; by apply Hif in H.
  - destruct (from_path f (u ++ rev (c :: rs))) as [[d|]|er]; [| |intros H; inversion H]; [|intros [= H]; by apply Hif in H].
    destruct (is_renamed f d) as [[r|]|er]; [| |intros H; inversion H]; [|apply IH].
    destruct (is_abs r).
    + destruct (find_mount_point f (l ++ rev (c :: rs))) as [mp|er]; [|intros H; inversion H]. intros [= H]. by apply Hif in H.
    + intros [= H]. by apply Hif in H.
Qed.

(** The host path an entry [s] of the upper directory [u] of mount [m] stands for: its own, unless
    it or a directory above it was renamed: then the redirect of the nearest one replaces the name of
    that one (as a path from some mount point, if it is absolute). *)
Definition stands_for (f : fs) (u m s sp : path) : Prop :=
  sp = m ++ s ∨
  ∃ a x b na r top, s = a ++ x :: b ∧ f !! (u ++ a ++ [x]) = Some na ∧
    n_xattr na !! "trusted.overlay.redirect" = Some r ∧
    (if is_abs (lossy r) then under top (m ++ a ++ [x]) = true else top = m ++ a) ∧
    sp = top ++ comps (lossy r) ++ b.

Lemma fmp_under (f : fs) (p mp : path) : find_mount_point f p = Ok mp → under mp p = true.
Proof.
  unfold find_mount_point. destruct (fmp_existing f (rev p)) as [rp|er] eqn:E; cbn [rbind]; [|intros H; inversion H].
  assert (under (rev rp) p = true) as Hrp.
  { clear mp. revert E. rewrite <-(rev_involutive p) at 2. generalize (rev p). clear p. intros rq. revert rp.
    induction rq as [|x rq IH]; intros rp; cbn [fmp_existing].
    - destruct (exists_ f (rev [])); [|intros H; inversion H]. intros [= <-]. apply under_refl.
    - destruct (exists_ f (rev (x :: rq))); [intros [= <-]; apply under_refl|].
      intros H. cbn [rev]. eapply under_trans; [by apply IH|]. apply under_app. }
  destruct (lstat f (rev rp)) as [n|er]; cbn [rbind]; [|intros H; inversion H].
  clear E. generalize (n_dev n). intros dev H. revert Hrp H.
  induction rp as [|x rp IH]; cbn [fmp_climb]; intros Hrp.
  - intros [= <-]. by destruct p.
  - destruct (lstat f (rev rp)) as [pn|er]; cbn [rbind]; [|intros H; inversion H].
    destruct (N.eqb (n_dev pn) dev); [|intros [= <-]; exact Hrp].
    apply IH. eapply under_trans; [|exact Hrp]. cbn [rev]. apply under_app.
Qed.

Lemma renamed_attr (f : fs) (p : path) (n : node) (r : string) : wf_tree f → f !! p = Some n → utf8_path p →
  is_renamed f (details_of p n) = Ok (Some r) → ∃ v, n_xattr n !! "trusted.overlay.redirect" = Some v ∧ r = lossy v.
Proof.
  intros Hwf Hn Hu. unfold is_renamed. cbn [d_path details_of]. rewrite cstring_utf8 by exact Hu.
  rewrite !(lgetxattr_dom f p n _ _ Hwf Hn). unfold XREDIRECT.
  destruct (n_xattr n !! "trusted.overlay.redirect") as [v|]; [|intros H; inversion H].
  destruct (N.of_nat (String.length v) <=? 256)%N; [intros [= <-]; by exists v|].
  destruct (N.of_nat (String.length v) <=? 65536)%N; [intros [= <-]; by exists v|]. intros H; inversion H.
Qed.

Lemma source_stands (f : fs) (u m s sp : path) : wf_tree f → (∀ a b, s = a ++ b → is_Some (f !! (u ++ a)) ∧ utf8_path (u ++ a)) →
  get_source f u m s = Ok (Some sp) → stands_for f u m s sp.
Proof.
  intros Hwf. unfold get_source.
  enough (∀ acc pre, (∀ a b, pre = a ++ b → is_Some (f !! (u ++ a)) ∧ utf8_path (u ++ a)) →
    source_loop f u m (rev pre) acc = Ok (Some sp) → stands_for f u m (pre ++ acc) sp) as H.
  { intros Hs Hg. specialize (H [] s Hs Hg). by rewrite app_nil_r in H. }
  intros acc pre. revert acc. induction pre as [|c pre IH] using rev_ind; intros acc Hpre.
  - cbn [rev source_loop app]. destruct (from_path f (u ++ [])) as [[d|]|er]; [| |intros H; inversion H];
      unfold if_exists; (destruct (exists_ f (m ++ acc)); [|intros H; inversion H]); intros [= <-]; by left.
  - rewrite rev_app_distr. cbn [rev app source_loop]. rewrite rev_involutive.
    destruct (Hpre (pre ++ [c]) [] ltac:(by rewrite app_nil_r)) as [[n Hn] Hu].
    rewrite (from_path_dom f _ n Hwf Hn).
    destruct (is_renamed f (details_of (u ++ pre ++ [c]) n)) as [[r|]|er] eqn:Er; [| |intros H; inversion H].
    + destruct (renamed_attr f _ n r Hwf Hn Hu Er) as (v & Hv & ->).
      destruct (is_abs (lossy v)) eqn:Ea.
      * destruct (find_mount_point f (m ++ pre ++ [c])) as [mp|er] eqn:Em; [|intros H; inversion H].
        unfold if_exists. destruct (exists_ f (mp ++ comps (lossy v) ++ acc)); [|intros H; inversion H].
        intros [= <-]. right. exists pre, c, acc, n, v, mp. split; [by rewrite <-app_assoc|]. split; [exact Hn|].
        split; [exact Hv|]. rewrite Ea. split; [|reflexivity]. exact (fmp_under f _ mp Em).
      * unfold if_exists. destruct (exists_ f (m ++ pre ++ comps (lossy v) ++ acc)); [|intros H; inversion H].
        intros [= <-]. right. exists pre, c, acc, n, v, (m ++ pre). split; [by rewrite <-app_assoc|]. split; [exact Hn|].
        split; [exact Hv|]. rewrite Ea. split; [reflexivity|]. by rewrite <-app_assoc.
    + intros H. rewrite <-app_assoc. cbn [app]. apply IH; [|exact H].
      intros a b ->. apply (Hpre a (b ++ [c])). by rewrite app_assoc.
Qed.

(** The entry marks a deletion: a character device 0/0 (as far as the low 16 bits of the device
    number tell) or the whiteout attribute. *)
Definition deletion_mark (n : node) : Prop :=
  match n_kind n with
  | KChr r => N.land (N.shiftr r 8) 255 = 0%N ∧ N.land r 255 = 0%N
  | _ => is_Some (n_xattr n !! "trusted.overlay.whiteout")
  end.

Lemma removed_mark (f : fs) (p : path) (n : node) : wf_tree f → f !! p = Some n → utf8_path p →
  is_removed f (details_of p n) = true → deletion_mark n.
Proof.
  intros Hwf Hn Hu. unfold is_removed, deletion_mark. rewrite d_is_chr_of. cbn [d_path details_of d_rdev].
  rewrite cstring_utf8 by exact Hu. rewrite (lgetxattr_dom f p n _ _ Hwf Hn). unfold XWHITEOUT, st_rdev.
  destruct (n_kind n); try (destruct (n_xattr n !! "trusted.overlay.whiteout") as [v|]; [intros _; by exists v|intros H; inversion H]).
  rewrite andb_true_iff, !N.eqb_eq. done.
Qed.
Lemma opaque_mark (f : fs) (p : path) (n : node) : wf_tree f → f !! p = Some n → utf8_path p →
  is_opaque f (details_of p n) = true → is_Some (n_xattr n !! "trusted.overlay.opaque").
Proof.
  intros Hwf Hn Hu. unfold is_opaque. cbn [d_path details_of].
  rewrite cstring_utf8 by exact Hu. rewrite (lgetxattr_dom f p n _ _ Hwf Hn). unfold XOPAQUE.
  destruct (n_xattr n !! "trusted.overlay.opaque") as [v|]; [intros _; by exists v|intros H; inversion H].
Qed.

Theorem C12_every_listing_partial : ∀ (e : env) (f : fs) (ub : path) (inc : bool) (cs : list change),
  wf_tree f → env_ok e → is_dir_at f ub → (∀ p n, f !! p = Some n → under ub p = true → utf8_path p) →
  changes e f ub inc = Ok cs →
  ∀ c, c ∈ cs → ∃ enc m s n, decode_base enc = Some m ∧ s ≠ [] ∧ f !! (ub ++ enc :: s) = Some n ∧
    match c_op c with
    | OSet _ =>
        c_dest c = m ++ s ∧ c_staged c = Some (details_of (ub ++ enc :: s) n) ∧
        (is_kfile (n_kind n) || is_kdir (n_kind n) || is_klink (n_kind n)) = true
    | ORename =>
        c_dest c = m ++ s ∧ c_staged c = Some (details_of (ub ++ enc :: s) n) ∧
        is_Some (n_xattr n !! "trusted.overlay.redirect") ∧
        ∃ src k, stands_for f (ub ++ [enc]) m s src ∧ lstat f src = Ok k ∧ c_source c = Some (details_of src k)
    | OError UnsupportedFileType =>
        c_dest c = m ++ s ∧ c_staged c = Some (details_of (ub ++ enc :: s) n) ∧
        (is_kfile (n_kind n) || is_kdir (n_kind n) || is_klink (n_kind n)) = false
    | OError RedirectPathNotFound =>
        c_dest c = m ++ s ∧ c_staged c = Some (details_of (ub ++ enc :: s) n) ∧
        is_Some (n_xattr n !! "trusted.overlay.redirect")
    | ORemove =>
        ∃ src k, stands_for f (ub ++ [enc]) m s src ∧ under src (c_dest c) = true ∧
          lstat f (c_dest c) = Ok k ∧ c_source c = Some (details_of (c_dest c) k) ∧
          (deletion_mark n ∨ is_Some (n_xattr n !! "trusted.overlay.opaque") ∨ (n_kind n ≠ KDir ∧ is_dir f src = true))
    end.
Proof.
  intros e f ub inc cs Hwf He Hub Hutf Hcs c Hc.
  destruct (listed_origin e f ub inc cs He Hcs c Hc) as (enc & m & s & ud & src & (Hw & Hdec & Hs & Hfp) & Hsrc & _ & Hcase).
  apply (elem_of_walkdir f ub _ Hwf Hub) in Hw as [Hund [n Hn]].
  rewrite (from_path_dom f _ n Hwf Hn) in Hfp. injection Hfp as <-.
  assert (utf8_path (ub ++ enc :: s)) as Hu by (by eapply Hutf).
  exists enc, m, s, n. split; [exact Hdec|]. split; [exact Hs|]. split; [exact Hn|].
  assert (∀ sp, src = Some sp → stands_for f (ub ++ [enc]) m s sp ∧ exists_ f sp = true) as Hst.
  { intros sp ->. split; [|exact (source_exists _ _ _ _ _ _ Hsrc)].
    apply source_stands; [exact Hwf| |exact Hsrc]. intros a b ->.
    assert (is_Some (f !! ((ub ++ [enc]) ++ a))) as [na Hna].
    { eapply (wf_is_Some_prefix f _ b n Hwf). rewrite <-!app_assoc. exact Hn. }
    split; [by exists na|]. apply (Hutf _ na Hna). rewrite <-app_assoc. apply under_app. }
  destruct Hcase as [(sp & -> & Hr)|(sd & Hsd & Hset)].
  - destruct (Hst sp eq_refl) as [Hstands Hex].
    destruct Hr as (-> & Hmark & Hwhere & _ & _ & Hso & Hdir).
    assert (under sp (c_dest c) = true) as Hun.
    { destruct Hwhere as [-> |[_ Hwd]]; [apply under_refl|]. unfold walkdir in Hwd.
      destruct (lookup_f f sp) as [cc|]; [|by apply elem_of_nil in Hwd].
      destruct (f !! cc) as [nn|]; [|by apply elem_of_nil in Hwd].
      destruct (is_kdir (n_kind nn)).
      - apply elem_of_list_omap in Hwd as (k & _ & Hk). destruct (path_strip cc k); [|discriminate Hk].
        injection Hk as <-. apply under_app.
      - apply elem_of_list_singleton in Hwd as ->. apply under_refl. }
    assert (∃ k, lstat f (c_dest c) = Ok k) as [k Hk].
    { destruct (is_dir f sp) eqn:Edir.
      - destruct (Hdir eq_refl) as [d Hd]. rewrite Hd in Hso. destruct (from_path_inv _ _ _ Hso) as (k & Hk & _). by exists k.
      - destruct Hwhere as [-> |[Hx _]]; [|discriminate Hx]. apply stat_lstat. exact Hex. }
    exists sp, k. split; [exact Hstands|]. split; [exact Hun|]. split; [exact Hk|]. split.
    + unfold from_path in Hso. rewrite Hk in Hso. injection Hso as Hso. by rewrite Hso.
    + destruct Hmark as [Ho|[Hr|[Hd1 Hd2]]].
      * right. left. exact (opaque_mark f _ n Hwf Hn Hu Ho).
      * left. exact (removed_mark f _ n Hwf Hn Hu Hr).
      * right. right. split; [|exact Hd2]. intros Hk'. rewrite d_is_dir_of, Hk' in Hd1. discriminate Hd1.
  - destruct Hset as (Hnr & Hdest & Hstg & _ & Hop).
    destruct (c_op c) as [t| | |[|]]; [|by destruct Hnr| | |]; (split; [exact Hdest|]); (split; [exact Hstg|]).
    + destruct Hop as (_ & _ & Hk). rewrite d_is_file_of, d_is_dir_of, d_is_symlink_of in Hk. rewrite !orb_true_iff. tauto.
    + destruct Hop as ([d Hd] & Hcs2 & [r Hr]). destruct (renamed_attr f _ n r Hwf Hn Hu Hr) as (v & Hv & _).
      split; [by exists v|]. destruct src as [sp|]; [|congruence]. rewrite Hd in Hsd.
      destruct (from_path_inv _ _ _ Hsd) as (k & Hk & ->). exists sp, k.
      split; [apply (Hst sp eq_refl)|]. split; [exact Hk|]. congruence.
    + destruct Hop as (_ & _ & H1 & H2 & H3). rewrite d_is_file_of in H1. rewrite d_is_dir_of in H2. rewrite d_is_symlink_of in H3.
      by rewrite H1, H2, H3.
    + destruct Hop as (_ & _ & [r Hr]). destruct (renamed_attr f _ n r Hwf Hn Hu Hr) as (v & Hv & _). by exists v.
Qed.
Print Assumptions C12_every_listing_partial.

(** ** The general theorems apply to sandboxes with renamed directories and links *)
(** mv a b; a new file in b; a host link /l into the renamed directory; the host directory /k was
    deleted and recreated. *)
Definition busy_fs : fs := list_to_map
  [ ([], dir0); (["a"], dir0); (["a"; "x"], file_ "old"); (["l"], Node (KLink "a") 511 0 0 1 ∅);
    (["k"], dir0); (["k"; "y"], file_ "1"); (["home"], dir0);
    (["st"], dir0); (["st"; "F4"], dir0);
    (["st"; "F4"; "a"], Node (KChr 0) 420 0 0 1 ∅);
    (["st"; "F4"; "b"], Node KDir 493 0 0 1 {[ "trusted.overlay.redirect" := "/a" ]});
    (["st"; "F4"; "b"; "n"], Node (KFile "new") 384 7 7 1 ∅);
    (["st"; "F4"; "k"], Node KDir 448 0 0 1 {[ "trusted.overlay.opaque" := "y" ]}) ].
Lemma busy_wf : wf_tree busy_fs.
Proof. apply wf_treeb_spec. vm_compute. reflexivity. Qed.
Lemma busy_storage : storage_ok busy_fs ["st"] [[]].
Proof. apply storage_okb_spec. vm_compute. reflexivity. Qed.
Lemma busy_fresh : fresh_uuids demo_env busy_fs.
Proof. apply (fresh_suffixb_spec _ _ "uuid"); [done|]. vm_compute. reflexivity. Qed.
Lemma demo_one_length : one_length demo_env.
Proof. intros ph i ph' i'. reflexivity. Qed.
Example general_nonvacuous :
  let o := accept demo_env ["st"] true ["/"] busy_fs in
  is_ok (o_res o) = true ∧
  (match selected demo_env busy_fs ["st"] true ["/"] with Ok l => (λ c, (c_dest c, d_path <$> c_staged c)) <$> l | Err _ => [] end) =
    [(["b"], Some ["st"; "F4"; "b"]); (["k"], Some ["st"; "F4"; "k"]); (["k"; "y"], None); (["k"], Some ["st"; "F4"; "k"]);
     (["b"; "n"], Some ["st"; "F4"; "b"; "n"])] ∧
  o_fs o !! ["b"; "x"] = Some (file_ "old") ∧ o_fs o !! ["b"; "n"] = Some (Node (KFile "new") 384 7 7 1 ∅) ∧
  o_fs o !! ["st"; "F4"; "b"] = None ∧
  (* there is a moment at which a temporary name holds a truncated copy *)
  existsb (λ s, match s !! ["b"; "n.uuid"] with Some n => bool_decide (n_kind n = KFile "ne") | None => false end) (states o) = true.
Proof. vm_compute. repeat split. Qed.

(** ** What is false *)

(** C06, taken to cover removals listed because of another staged entry: the accepted change is not
    listed again. *)
Definition C06_listed_again_full : Prop := ∀ (e : env) (f : fs) (ub : path) (ms : list path) (inc : bool) (pats : list string) (sel cs' : list change),
  storage_ok f ub ms → env_ok e → fresh_uuids e f → selected e f ub inc pats = Ok sel →
  let o := accept e ub inc pats f in is_ok (o_res o) = true → changes e (o_fs o) ub inc = Ok cs' →
  ∀ c c', c ∈ sel → c' ∈ cs' → c_op c = ORemove → c_op c' = ORemove → c_dest c ≠ c_dest c'.
(** False: /d was deleted and recreated with a new file /d/a, and only /d/a is accepted: the removal
    of the old /d/a is carried out, but as long as /d itself is not accepted, everything in /d, now
    the accepted file, is listed as removed. *)
Definition again_fs : fs := list_to_map
  [ ([], dir0); (["d"], dir0); (["d"; "a"], file_ "old");
    (["st"], dir0); (["st"; "F4"], dir0);
    (["st"; "F4"; "d"], Node KDir 493 0 0 1 {[ "trusted.overlay.opaque" := "y" ]});
    (["st"; "F4"; "d"; "a"], file_ "new") ].
Definition is_removal (c : change) : bool := match c_op c with ORemove => true | _ => false end.
Definition removed_twice (e : env) (f : fs) (ub : path) (pats : list string) : bool :=
  match selected e f ub true pats with
  | Err _ => false
  | Ok sel =>
      is_ok (o_res (accept e ub true pats f)) &&
      match changes e (o_fs (accept e ub true pats f)) ub true with
      | Err _ => false
      | Ok cs' => existsb (λ c, existsb (λ c', is_removal c && is_removal c' && bool_decide (c_dest c = c_dest c')) cs') sel
      end
  end.
Lemma is_removal_spec (c : change) : is_removal c = true → c_op c = ORemove.
Proof. unfold is_removal. destruct (c_op c); intros H; inversion H; reflexivity. Qed.
Lemma removed_twice_spec (e : env) (f : fs) (ub : path) (pats : list string) : removed_twice e f ub pats = true →
  ∃ sel cs' c c', selected e f ub true pats = Ok sel ∧ is_ok (o_res (accept e ub true pats f)) = true ∧
    changes e (o_fs (accept e ub true pats f)) ub true = Ok cs' ∧ c ∈ sel ∧ c' ∈ cs' ∧ c_op c = ORemove ∧ c_op c' = ORemove ∧
    c_dest c = c_dest c'.
Proof.
  unfold removed_twice. destruct (selected e f ub true pats) as [sel|er]; [|intros H; inversion H].
  destruct (changes e (o_fs (accept e ub true pats f)) ub true) as [cs'|er]; [|rewrite andb_false_r; intros H; inversion H].
  rewrite andb_true_iff. intros [H1 H2]. apply existsb_exists in H2 as (c & Hc & H2). apply existsb_exists in H2 as (c' & Hc' & H2).
  rewrite !andb_true_iff in H2. destruct H2 as [[H2 H3] H4]. apply is_removal_spec in H2, H3. apply bool_decide_eq_true in H4.
  exists sel, cs', c, c'. apply elem_of_list_In in Hc, Hc'. auto 10.
Qed.
Theorem C06_listed_again_refuted : ¬ C06_listed_again_full.
Proof.
  intros H.
  assert (storage_ok again_fs ["st"] [[]]) as Hs by (apply storage_okb_spec; vm_compute; reflexivity).
  assert (fresh_uuids demo_env again_fs) as Hf by (apply (fresh_suffixb_spec _ _ "uuid"); [reflexivity|vm_compute; reflexivity]).
  assert (removed_twice demo_env again_fs ["st"] ["/d/a"] = true) as Ht by (vm_compute; reflexivity).
  destruct (removed_twice_spec _ _ _ _ Ht) as (sel & cs' & c & c' & H1 & H2 & H3 & H4 & H5 & H6 & H7 & H8).
  exact (H demo_env again_fs ["st"] [[]] true ["/d/a"] sel cs' Hs demo_env_ok Hf H1 H2 H3 c c' H4 H5 H6 H7 H8).
Qed.
Print Assumptions C06_listed_again_refuted.

(** C15 for every sandbox. *)
Definition C15_full : Prop := ∀ (e : env) (f : fs) (ub : path) (ms : list path) (inc : bool) (pats : list string) (sel : list change),
  storage_ok f ub ms → env_ok e → fresh_uuids e f → selected e f ub inc pats = Ok sel →
  let o := accept e ub inc pats f in is_ok (o_res o) = true →
  (∀ c, c ∈ sel → ¬ shown c) → ∀ q, under ub q = false → same_view (f !! q) (o_fs o !! q).
(** False: "rm -r b; mv a b" and a directory of the new b that was only copied up (b/d, the old a/d):
    status does not print b/d, but accepting it creates /b/d, because the host still has the old /b. *)
Definition hidden_fs : fs := list_to_map
  [ ([], dir0); (["a"], dir0); (["a"; "d"], dir0); (["b"], dir0);
    (["st"], dir0); (["st"; "F4"], dir0);
    (["st"; "F4"; "a"], Node (KChr 0) 420 0 0 1 ∅);
    (["st"; "F4"; "b"], Node KDir 493 0 0 1 {[ "trusted.overlay.redirect" := "/a" ]});
    (["st"; "F4"; "b"; "d"], dir0) ].
Theorem C15_refuted : ¬ C15_full.
Proof.
  intros H.
  assert (storage_ok hidden_fs ["st"] [[]]) as Hs by (apply storage_okb_spec; vm_compute; reflexivity).
  assert (fresh_uuids demo_env hidden_fs) as Hf by (apply (fresh_suffixb_spec _ _ "uuid"); [reflexivity|vm_compute; reflexivity]).
  assert (selected demo_env hidden_fs ["st"] true ["/b/d"] =
    Ok [Change ["b"; "d"] (OSet Modify) (Some (details_of ["a"; "d"] dir0)) (Some (details_of ["st"; "F4"; "b"; "d"] dir0)) None]) as E1
    by (vm_compute; reflexivity).
  assert (is_ok (o_res (accept demo_env ["st"] true ["/b/d"] hidden_fs)) = true) as E2 by (vm_compute; reflexivity).
  assert (o_fs (accept demo_env ["st"] true ["/b/d"] hidden_fs) !! ["b"; "d"] = Some dir0) as E3 by (vm_compute; reflexivity).
  assert (same_view (hidden_fs !! ["b"; "d"]) (o_fs (accept demo_env ["st"] true ["/b/d"] hidden_fs) !! ["b"; "d"])) as Hv.
  { refine (H demo_env hidden_fs ["st"] [[]] true ["/b/d"] _ Hs demo_env_ok Hf E1 E2 _ ["b"; "d"] eq_refl).
    intros c Hc. apply elem_of_list_singleton in Hc as ->. intros Hsh. apply Hsh.
    exists (details_of ["st"; "F4"; "b"; "d"] dir0), (details_of ["a"; "d"] dir0). cbn. auto 10. }
  rewrite E3 in Hv. vm_compute in Hv. destruct Hv.
Qed.
Print Assumptions C15_refuted.

(** C05 for every sandbox. *)
Definition C05_full : Prop := ∀ (e : env) (f : fs) (ub : path) (ms : list path) (inc : bool) (pats : list string) (sel : list change),
  storage_ok f ub ms → env_ok e → fresh_uuids e f → selected e f ub inc pats = Ok sel →
  ∀ st, st ∈ states (accept e ub inc pats f) →
    (∀ q, under ub q = true → st !! q = f !! q) ∨
    (∀ c t, c ∈ sel → c_op c = OSet t → ∃ d nst n, c_staged c = Some d ∧ f !! d_path d = Some nst ∧
        st !! c_dest c = Some n ∧ same_entry nst n).
(** False: the storage lies below /home, and in the sandbox the user also deleted the storage
    directory holding the staged changes of "/" (visible there as an ordinary directory of /home):
    accept carries this removal out first, and with it the staged edit of /etc/conf is destroyed;
    then accept fails, because the file to copy is gone. *)
Definition home_ (k : kind) : node := Node k 493 0 0 2 ∅.
Definition own_fs : fs := list_to_map
  [ ([], dir0); (["etc"], dir0); (["etc"; "conf"], file_ "old"); (["home"], home_ KDir); (["home"; "st"], home_ KDir);
    (["home"; "st"; "up"], home_ KDir);
    (["home"; "st"; "up"; "F4"], home_ KDir); (["home"; "st"; "up"; "F4"; "etc"], home_ KDir);
    (["home"; "st"; "up"; "F4"; "etc"; "conf"], home_ (KFile "new"));
    (["home"; "st"; "up"; "F5UG63LF"], home_ KDir); (["home"; "st"; "up"; "F5UG63LF"; "st"], home_ KDir);
    (["home"; "st"; "up"; "F5UG63LF"; "st"; "up"], home_ KDir);
    (["home"; "st"; "up"; "F5UG63LF"; "st"; "up"; "F4"], home_ (KChr 0)) ].
Theorem C05_refuted : ¬ C05_full.
Proof.
  intros H. set (ub := ["home"; "st"; "up"]).
  assert (storage_ok own_fs ub [[]; ["home"]]) as Hs by (apply storage_okb_spec; vm_compute; reflexivity).
  assert (fresh_uuids demo_env own_fs) as Hf by (apply (fresh_suffixb_spec _ _ "uuid"); [reflexivity|vm_compute; reflexivity]).
  set (o := accept demo_env ub true ["/"] own_fs).
  assert (o_fs o !! ["home"; "st"; "up"; "F4"; "etc"; "conf"] = None) as E1 by (vm_compute; reflexivity).
  assert (o_fs o !! ["etc"; "conf"] = Some (file_ "old")) as E2 by (vm_compute; reflexivity).
  destruct (selected demo_env own_fs ub true ["/"]) as [sel|er] eqn:Esel; [|vm_compute in Esel; discriminate Esel].
  destruct (H demo_env own_fs ub [[]; ["home"]] true ["/"] sel Hs demo_env_ok Hf Esel (o_fs o)) as [Ha|Ha].
  - unfold states. apply elem_of_app. right. by apply elem_of_list_singleton.
  - assert (o_fs o !! ["home"; "st"; "up"; "F4"; "etc"; "conf"] = own_fs !! ["home"; "st"; "up"; "F4"; "etc"; "conf"]) as E3
      by (apply Ha; vm_compute; reflexivity).
    rewrite E1 in E3. vm_compute in E3. discriminate E3.
  - set (c := Change ["etc"; "conf"] (OSet Modify) (Some (details_of ["etc"; "conf"] (file_ "old")))
      (Some (details_of ["home"; "st"; "up"; "F4"; "etc"; "conf"] (home_ (KFile "new")))) None).
    assert (match selected demo_env own_fs ub true ["/"] with
            | Ok l => existsb (λ x, bool_decide (c_dest x = ["etc"; "conf"]) &&
                match c_op x, c_staged x with OSet Modify, Some d => bool_decide (d_path d = ["home"; "st"; "up"; "F4"; "etc"; "conf"]) | _, _ => false end) l
            | Err _ => false end = true) as E4 by (vm_compute; reflexivity).
    rewrite Esel in E4. apply existsb_exists in E4 as (x & Hx & E4). apply elem_of_list_In in Hx.
    rewrite andb_true_iff, bool_decide_eq_true in E4. destruct E4 as [Hd E4].
    destruct (c_op x) as [[|]| | |] eqn:Eo; try discriminate E4.
    destruct (Ha x Modify Hx Eo) as (d & nst & n & Hst & Hn & Hn2 & Hsame).
    rewrite Hst in E4. apply bool_decide_eq_true in E4. rewrite E4 in Hn. rewrite Hd, E2 in Hn2. injection Hn2 as <-.
    assert (nst = home_ (KFile "new")) as ->.
    { assert (own_fs !! ["home"; "st"; "up"; "F4"; "etc"; "conf"] = Some (home_ (KFile "new"))) as E5 by (vm_compute; reflexivity).
      rewrite E5 in Hn. by injection Hn. }
    destruct Hsame as [Hk _]. vm_compute in Hk. discriminate Hk.
Qed.
Print Assumptions C05_refuted.

(** C52 for every sandbox. *)
Definition C52_full : Prop := ∀ (e : env) (f : fs) (ub : path) (ms : list path) (inc : bool) (pats : list string) (sel : list change),
  storage_ok f ub ms → env_ok e → fresh_uuids e f → selected e f ub inc pats = Ok sel →
  let o := accept e ub inc pats f in is_ok (o_res o) = true →
  ∀ c t, c ∈ sel → c_op c = OSet t →
  ∃ d staged host, c_staged c = Some d ∧ f !! d_path d = Some staged ∧ o_fs o !! c_dest c = Some host ∧
    n_uid host = n_uid staged ∧ n_gid host = n_gid staged ∧ (is_klink (n_kind staged) = false → n_perm host = n_perm staged).
(** False: /home became a file system of its own after the sandbox had staged /home/x in its upper
    directory for "/"; it then stages another /home/x in the upper directory for /home. Both are
    listed, with one destination; one of them overwrites the other, and what was accepted first is
    lost, although accept reports success for both. *)
Definition twice_fs : fs := list_to_map
  [ ([], dir0); (["home"], home_ KDir); (["st"], dir0); (["st"; "F4"], dir0); (["st"; "F4"; "home"], dir0);
    (["st"; "F4"; "home"; "x"], Node (KFile "a") 420 5 5 1 ∅);
    (["st"; "F5UG63LF"], dir0); (["st"; "F5UG63LF"; "x"], Node (KFile "b") 384 7 7 1 ∅) ].
Theorem C52_refuted : ¬ C52_full.
Proof.
  intros H.
  assert (storage_ok twice_fs ["st"] [[]; ["home"]]) as Hs by (apply storage_okb_spec; vm_compute; reflexivity).
  assert (fresh_uuids demo_env twice_fs) as Hf by (apply (fresh_suffixb_spec _ _ "uuid"); [reflexivity|vm_compute; reflexivity]).
  set (o := accept demo_env ["st"] true ["/"] twice_fs).
  assert (is_ok (o_res o) = true) as Hok by (vm_compute; reflexivity).
  destruct (selected demo_env twice_fs ["st"] true ["/"]) as [sel|er] eqn:Esel; [|vm_compute in Esel; discriminate Esel].
  specialize (H demo_env twice_fs ["st"] [[]; ["home"]] true ["/"] sel Hs demo_env_ok Hf Esel Hok).
  assert (∀ p uid, match selected demo_env twice_fs ["st"] true ["/"] with
            | Ok l => existsb (λ x, bool_decide (c_dest x = ["home"; "x"]) &&
                match c_op x, c_staged x with OSet Create, Some d => bool_decide (d_path d = p) | _, _ => false end) l
            | Err _ => false end = true →
          (n_uid <$> twice_fs !! p) = Some uid → (n_uid <$> o_fs o !! ["home"; "x"]) = Some uid) as Hall.
  { intros p uid E4 Hu. rewrite Esel in E4. apply existsb_exists in E4 as (x & Hx & E4). apply elem_of_list_In in Hx.
    rewrite andb_true_iff, bool_decide_eq_true in E4. destruct E4 as [Hd E4].
    destruct (c_op x) as [[|]| | |] eqn:Eo; try discriminate E4.
    destruct (H x Create Hx Eo) as (d & nst & n & Hst & Hn & Hn2 & Hu2 & _).
    rewrite Hst in E4. apply bool_decide_eq_true in E4. rewrite E4 in Hn. rewrite Hn in Hu. rewrite Hd in Hn2. fold o in Hn2. rewrite Hn2.
    cbn in Hu |- *. congruence. }
  assert (Some 5%N = Some 7%N) as E.
  { rewrite <-(Hall ["st"; "F4"; "home"; "x"] 5%N); [|vm_compute; reflexivity|vm_compute; reflexivity].
    apply (Hall ["st"; "F5UG63LF"; "x"]); vm_compute; reflexivity. }
  discriminate E.
Qed.
Print Assumptions C52_refuted.

(** C12 without the condition on names. *)
Definition C12_full : Prop := ∀ (e : env) (f : fs) (ub : path) (inc : bool) (cs : list change),
  wf_tree f → env_ok e → is_dir_at f ub → changes e f ub inc = Ok cs →
  ∀ c, c ∈ cs → c_op c = ORemove → ∃ enc m s n src, decode_base enc = Some m ∧ s ≠ [] ∧ f !! (ub ++ enc :: s) = Some n ∧
    stands_for f (ub ++ [enc]) m s src ∧ under src (c_dest c) = true ∧
    (deletion_mark n ∨ is_Some (n_xattr n !! "trusted.overlay.opaque") ∨ (n_kind n ≠ KDir ∧ is_dir f src = true)).
(** False: the attributes of a staged directory whose name is not valid UTF-8 are read from the path
    with U+FFFD in place of the ill-formed bytes. If there is an entry of that name and it is opaque
    (deleted and recreated), the contents of the first directory, which was only modified, are listed
    as removed. *)
Definition odd_fs : fs := list_to_map
  [ ([], dir0); ([latin1], dir0); ([latin1; "x"], file_ "1");
    (["st"], dir0); (["st"; "F4"], dir0); (["st"; "F4"; latin1], dir0);
    (["st"; "F4"; lossy latin1], Node KDir 493 0 0 1 {[ "trusted.overlay.opaque" := "y" ]}) ].
Definition odd_checkb (k : path) (n : node) : bool :=
  match n_xattr n !! "trusted.overlay.redirect" with Some _ => false | None => true end &&
  match path_strip ["st"] k with
  | Some (enc :: x :: r) =>
      match decode_base enc with
      | Some m =>
          is_kdir (n_kind n) && match n_xattr n !! "trusted.overlay.whiteout" with Some _ => false | None => true end &&
          (negb (under (m ++ x :: r) [latin1; "x"]) || match n_xattr n !! "trusted.overlay.opaque" with Some _ => false | None => true end)
      | None => true
      end
  | _ => true
  end.
Theorem C12_refuted : ¬ C12_full.
Proof.
  intros H.
  assert (wf_tree odd_fs) as Hw by (apply wf_treeb_spec; vm_compute; reflexivity).
  assert (is_dir_at odd_fs ["st"]) as Hd by (exists dir0; vm_compute; auto).
  destruct (changes demo_env odd_fs ["st"] true) as [cs|er] eqn:Ecs; [|vm_compute in Ecs; discriminate Ecs].
  specialize (H demo_env odd_fs ["st"] true cs Hw demo_env_ok Hd Ecs).
  assert (match changes demo_env odd_fs ["st"] true with
          | Ok l => existsb (λ x, is_removal x && bool_decide (c_dest x = [latin1; "x"])) l
          | Err _ => false end = true) as E4 by (vm_compute; reflexivity).
  rewrite Ecs in E4. apply existsb_exists in E4 as (c & Hc & E4). apply elem_of_list_In in Hc.
  rewrite andb_true_iff, bool_decide_eq_true in E4. destruct E4 as [Eo Hdest]. apply is_removal_spec in Eo.
  destruct (H c Hc Eo) as (enc & m & s & n & src & Hdec & Hs & Hn & Hst & Hu & Hmark).
  assert (on_fs odd_fs odd_checkb = true) as Hchk by (vm_compute; reflexivity).
  assert (src = m ++ s) as ->.
  { destruct Hst as [-> |(a & x & b & na & r & top_ & _ & Hna & Hr & _)]; [reflexivity|].
    apply (on_fs_spec _ _ Hchk) in Hna. unfold odd_checkb in Hna. rewrite Hr in Hna. discriminate Hna. }
  apply (on_fs_spec _ _ Hchk) in Hn. unfold odd_checkb in Hn. rewrite path_strip_app in Hn.
  destruct s as [|x r]; [by destruct Hs|]. rewrite Hdec in Hn. rewrite Hdest in Hu. rewrite Hu in Hn.
  rewrite !andb_true_iff in Hn. destruct Hn as [_ [[Hk Hwh] Hop]]. cbn [negb orb] in Hop.
  apply is_kdir_true in Hk. destruct Hmark as [Hm|[[v Hv]|[Hnd _]]].
  - unfold deletion_mark in Hm. rewrite Hk in Hm. destruct Hm as [v Hv]. rewrite Hv in Hwh. discriminate Hwh.
  - rewrite Hv in Hop. discriminate Hop.
  - by destruct Hnd.
Qed.
Print Assumptions C12_refuted.
