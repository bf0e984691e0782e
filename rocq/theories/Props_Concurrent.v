(** * C77: two accepts of the same sandbox at the same time.
    /repo/src/main.rs:95-124 opens the sandbox for accept without taking its lock, so two of them may run
    at once; each makes its listing first (accept.rs:118-134) and then works from the listing. *)
From Verif Require Export Props_Loss.

(** ** Model: the part of accept after the listing (accept.rs:135-438). *)
Definition accept_from (e : env) (cs : list change) : M nat :=
  match cs with
  | [] => ret_ 0
  | _ =>
      r1 <-- accept_pass e 0 true cs ;;
      r2 <-- accept_pass e 2 false r1.2 ;;
      ret_ r2.1
  end.

(** Accept is the listing followed by this part. *)
Lemma accept_split (e : env) (ub : path) (inc : bool) (pats : list string) (f : fs) (sel : list change) :
  selected e f ub inc pats = Ok sel →
  o_trace (accept e ub inc pats f) = o_trace (accept_from e sel f) ∧
  o_fs (accept e ub inc pats f) = o_fs (accept_from e sel f) ∧
  is_ok (o_res (accept e ub inc pats f)) = is_ok (o_res (accept_from e sel f)).
Proof.
  unfold selected. destruct (changes e f ub inc) as [all|er] eqn:Ec; [|done]. intros [= <-].
  unfold accept, accept_from, bind_, get_. rewrite Ec. cbn [o_res o_trace o_fs app].
  destruct (matching (e_glob e) (e_cwd e) pats all) as [|c0 l0]; [done|].
  destruct (accept_pass e 0 true (c0 :: l0) f) as [t1 f1 [r1|e1]]; cbn [o_res o_trace o_fs]; [|done].
  destruct (accept_pass e 2 false r1.2 f1) as [t2 f2 [r2|e2]]; cbn [o_res o_trace o_fs is_ok ret_]; done.
Qed.

(** ** Specification *)
(** The first accept runs from beginning to end between the listing of the second and the rest of the second.
    No state of that history loses a file the sandbox showed. *)
Definition C77_full : Prop := ∀ e1 e2 f ub ms inc pats pats2 sel,
  sandbox_ok f ub ms → acceptable f ub ms → env_ok e1 → env_ok e2 → fresh_uuids e1 f → fresh_uuids e2 f →
  selected e2 f ub inc pats2 = Ok sel →
  let first := accept e1 ub inc pats f in is_ok (o_res first) = true →
  let second := accept_from e2 sel (o_fs first) in
  ∀ st, st ∈ states first ++ states second →
  ∀ m s c, owns ms m (m ++ s) → under ub (m ++ s) = false → shows f ub m s c → held st c.

(** In the sandbox: rm -r d; mkdir d; echo work > d/x.  The second accept deletes the d/x that the first has put
    in place. *)
Definition replaced_fs : fs := list_to_map
  [ ([], dir0); (["home"], dir0); (["d"], dir0); (["d"; "x"], file_ "old");
    (["sbx"], dir0); (["sbx"; "up"], dir0); (["sbx"; "up"; "F4"], dir0);
    (["sbx"; "up"; "F4"; "d"], opaque_dir); (["sbx"; "up"; "F4"; "d"; "x"], file_ "work") ].
Lemma replaced_ok : sandbox_ok replaced_fs demo_ub [[]].
Proof. apply sandbox_okb_spec. vm_compute. reflexivity. Qed.
Lemma replaced_acceptable : acceptable replaced_fs demo_ub [[]].
Proof. apply acceptableb_spec. vm_compute. reflexivity. Qed.
Lemma replaced_fresh : fresh_uuids demo_env replaced_fs.
Proof. apply (fresh_suffixb_spec _ _ "uuid"); [done|]. vm_compute. reflexivity. Qed.
Definition replaced_sel : list change := Eval vm_compute in
  match selected demo_env replaced_fs demo_ub true ["/"] with Ok l => l | Err _ => [] end.
Definition after_first : fs := Eval vm_compute in o_fs (accept demo_env demo_ub true ["/"] replaced_fs).

Theorem C77_refuted : ¬ C77_full.
Proof.
  intros H.
  pose proof (H demo_env demo_env replaced_fs demo_ub [[]] true ["/"] ["/"] replaced_sel replaced_ok replaced_acceptable
    demo_env_ok demo_env_ok replaced_fresh replaced_fresh ltac:(vm_compute; reflexivity)) as H1. clear H. cbv zeta in H1.
  assert (o_fs (accept demo_env demo_ub true ["/"] replaced_fs) = after_first) as E by (vm_compute; reflexivity).
  rewrite E in H1. specialize (H1 ltac:(vm_compute; reflexivity) (o_fs (accept_from demo_env replaced_sel after_first))).
  assert (held (o_fs (accept_from demo_env replaced_sel after_first)) "work") as H2.
  { apply (H1 ltac:(apply elem_of_app; right; unfold states; apply elem_of_app; right; left) [] ["d"; "x"]).
    - split; [left|]. split; [vm_compute; reflexivity|]. intros m' Hm' Hu. apply elem_of_list_singleton in Hm' as ->. vm_compute. reflexivity.
    - vm_compute. reflexivity.
    - exists (file_ "work"). split; vm_compute; reflexivity. }
  revert H2. apply heldb_false. clear H1. vm_compute. reflexivity.
Qed.
Print Assumptions C77_refuted.

(** ** What holds: if the second accept has listed nothing but new and changed entries (no deletion, no replaced
    or renamed directory) that the first has accepted too, it neither removes nor creates nor changes the
    contents of anything, wherever it is stopped. *)
Definition same_contents (g st : fs) : Prop := ∀ p, n_kind <$> st !! p = n_kind <$> g !! p.

Lemma same_none (g st : fs) (p : path) : same_contents g st → g !! p = None → st !! p = None.
Proof. intros H E. specialize (H p). rewrite E in H. by destruct (st !! p). Qed.
Lemma same_some (g st : fs) (p : path) (n : node) : same_contents g st → st !! p = Some n →
  ∃ k, g !! p = Some k ∧ n_kind k = n_kind n.
Proof.
  intros H E. specialize (H p). rewrite E in H. destruct (g !! p) as [k|]; [|done]. exists k. split; [done|].
  cbn in H. by injection H as ->.
Qed.
Lemma same_some' (g st : fs) (p : path) (n : node) : same_contents g st → g !! p = Some n →
  ∃ k, st !! p = Some k ∧ n_kind k = n_kind n.
Proof.
  intros H E. specialize (H p). rewrite E in H. destruct (st !! p) as [k|]; [|done]. exists k. split; [done|].
  cbn in H. by injection H as ->.
Qed.
Lemma same_nolink (g st : fs) (p : path) : same_contents g st → nolink g p → nolink st p.
Proof.
  intros H Hn q c r E. destruct (Hn q c r E) as [Hc Hl]. split; [done|]. intros n En.
  destruct (same_some g st q n H En) as (k & Ek & <-). by apply Hl.
Qed.
Lemma same_dirpath (g st : fs) (p : path) : same_contents g st → dirpath g p → dirpath st p.
Proof.
  intros H Hn q c r E. destruct (Hn q c r E) as [(n & En & Hk) Hc]. split; [|done].
  destruct (same_some' g st q n H En) as (k & Ek & E2). exists k. split; [done|congruence].
Qed.
Lemma same_update (g st : fs) (p : path) (n n' : node) : same_contents g st → st !! p = Some n → n_kind n' = n_kind n →
  same_contents g (<[p := n']> st).
Proof.
  intros H E Hk q. destruct (decide (p = q)) as [<- |Hne]; [|rewrite lookup_insert_ne by done; apply H].
  rewrite lookup_insert, <-(H p), E. cbn. by rewrite Hk.
Qed.

Lemma accum_keeps {A : Type} (I : fs → Prop) (D : path → Prop) (g : A → M (nat * list path)) (l : list A) :
  (∀ x, x ∈ l → triple I I (g x) (λ r s, I s ∧ ∀ p, p ∈ r.2 → D p)) →
  triple I I (accum l g) (λ r s, I s ∧ ∀ p, p ∈ r.2 → D p).
Proof.
  induction l as [|x l IH]; intros H.
  - apply triple_ret; [done|]. intros f Hf. split; [done|]. intros p Hp. by apply elem_of_nil in Hp.
  - cbn [accum]. eapply triple_bind; [apply H; left|]. intros r. apply triple_pure. intros H1.
    eapply triple_bind; [apply IH; intros y Hy; apply H; by right|]. intros r'. apply triple_pure. intros H2.
    apply triple_ret; [done|]. intros f Hf. split; [done|]. cbn [snd]. intros p Hp.
    apply elem_of_app in Hp as [Hp|Hp]; auto.
Qed.

Section stale.
  Context (e : env) (g : fs) (cs : list change).
  Context (Hset : ∀ c, c ∈ cs → is_set c).
  Context (Hgone : ∀ c d, c ∈ cs → c_staged c = Some d → nolink g (d_path d) ∧ g !! d_path d = None).
  Context (Hdir : ∀ c d, c ∈ cs → c_staged c = Some d → d_is_dir d = true → dirpath g (c_dest c) ∧ is_dir_at g (c_dest c)).
  #[local] Notation I := (same_contents g).
  Definition was_staged (p : path) : Prop := ∃ c d, c ∈ cs ∧ c_staged c = Some d ∧ p = d_path d.

  Lemma gone_stat (c : change) (d : details) (st : fs) : c ∈ cs → c_staged c = Some d → I st →
    (∃ er, stat st (d_path d) = Err er) ∧ (∃ er, lstat st (d_path d) = Err er).
  Proof.
    intros Hc Hd Hi. destruct (Hgone c d Hc Hd) as [Hn Hg]. pose proof (same_nolink g st _ Hi Hn) as Hn'.
    pose proof (same_none g st _ Hi Hg) as Hs. split.
    - unfold stat. destruct (lookup_f_nolink st (d_path d) Hn') as [-> |[er ->]]; [congruence| |]; cbn [rbind].
      + rewrite Hs. by eexists.
      + by eexists.
    - unfold lstat. destruct (lookup_l_nolink st (d_path d) Hn') as [-> |[er ->]]; cbn [rbind].
      + rewrite Hs. by eexists.
      + by eexists.
  Qed.
  Lemma perms_keep (p : path) (d : details) : dirpath g p → is_dir_at g p → triple I I (set_permissions p d) (λ _, I).
  Proof.
    intros Hp (n & Hn & Hk). unfold set_permissions. eapply triple_bind with (Q := λ _, I).
    - intros st Hst. destruct (same_some' g st p n Hst Hn) as (k & Ek & Ekk).
      unfold sys_lchown. rewrite (lookup_l_dirpath st p (same_dirpath g st p Hst Hp)), Ek. unfold emit. cbn [o_trace o_fs o_res].
      assert (I (<[p:=set_owner (set_perm k (chown_perm k)) (d_uid d) (d_gid d)]> st)) as HI by (by eapply same_update).
      split; [by apply Forall_singleton|]. split; [done|]. intros a _. exact HI.
    - intros []. destruct (N.eqb _ _); [by apply triple_ret|].
      intros st Hst. destruct (same_some' g st p n Hst Hn) as (k & Ek & Ekk).
      unfold sys_lchmod. rewrite (lookup_l_dirpath st p (same_dirpath g st p Hst Hp)), Ek.
      rewrite Ekk, Hk. cbn [is_klink]. unfold emit. cbn [o_trace o_fs o_res].
      assert (I (<[p:=set_perm k (N.land (d_mode d) o7777)]> st)) as HI by (by eapply same_update).
      split; [by apply Forall_singleton|]. split; [done|]. intros a _. exact HI.
  Qed.
  Lemma triple_fails {A : Type} (J : fs → Prop) (m : M A) (Q : A → fs → Prop) :
    (∀ st, J st → ∃ er, m st = Out [] st (Err er)) → triple J J m Q.
  Proof. intros H st Hst. destruct (H st Hst) as [er ->]. split; [constructor|]. split; [done|]. intros a E. discriminate E. Qed.

  Lemma stale_set (ph i : nat) (c : change) : c ∈ cs →
    triple I I (accept_set e ph false (i, c)) (λ r s, I s ∧ ∀ p, p ∈ r.2 → was_staged p).
  Proof.
    intros Hc. destruct (Hset c Hc) as [t Ht]. unfold accept_set. rewrite Ht.
    destruct (c_staged c) as [d|] eqn:Ed; [|by apply triple_throw].
    destruct (d_is_file d).
    { eapply triple_bind with (Q := λ _ _, False); [|intros a st []].
      apply triple_fails. intros st Hst. destruct (gone_stat c d st Hc Ed Hst) as [[er E] _]. exists er.
      unfold sys_copy. by rewrite E. }
    destruct (d_is_symlink d).
    { eapply triple_bind with (Q := λ _ _, False); [|intros a st []].
      apply triple_fails. intros st Hst. destruct (gone_stat c d st Hc Ed Hst) as [_ [er E]]. exists er.
      unfold get_, read_link. by rewrite E. }
    destruct (d_is_dir d) eqn:Edd; [|by apply triple_throw].
    destruct (Hdir c d Hc Ed Edd) as [Hp (n & Hn & Hk)].
    eapply triple_bind with (Q := λ a st, I st ∧ a = true).
    { apply triple_get; [done|]. intros st a Hst [= <-]. split; [done|].
      destruct (same_some' g st (c_dest c) n Hst Hn) as (k & Ek & Ekk).
      assert (stat st (c_dest c) = Ok k) as E.
      { rewrite stat_dirpath; [by rewrite Ek|by eapply same_dirpath|]. intros k' Ek'. assert (k' = k) as -> by congruence.
        by rewrite Ekk, Hk. }
      unfold exists_, is_dir. by rewrite E, Ekk, Hk. }
    intros a. apply triple_pure. intros ->.
    eapply triple_bind with (Q := λ _, I); [by apply triple_ret|]. intros [].
    eapply triple_bind with (Q := λ _, I); [apply perms_keep; [done|by exists n]|]. intros [].
    apply triple_ret; [done|]. intros st Hst. split; [done|]. cbn [snd]. intros p Hp'. apply elem_of_list_singleton in Hp' as ->.
    by exists c, d.
  Qed.

  Lemma stale_clean (ps : list path) : (∀ p, p ∈ ps → was_staged p) → triple I I (clean_up e ps) (λ _, I).
  Proof.
    intros H. unfold clean_up. apply triple_for. intros p Hp.
    assert (was_staged p) as (c & d & Hc & Hd & ->).
    { apply H. apply elem_of_dedup, elem_of_sort_by in Hp. exact Hp. }
    unfold clean_one. eapply triple_bind with (Q := λ a st, I st ∧ a = false).
    { apply triple_get; [done|]. intros st a Hst [= <-]. split; [done|].
      destruct (gone_stat c d st Hc Hd Hst) as [[er E] _]. unfold is_dir. rewrite E. by destruct (is_symlink st (d_path d)). }
    intros a. apply triple_pure. intros ->.
    apply triple_fails. intros st Hst. destruct (Hgone c d Hc Hd) as [Hn Hg].
    unfold sys_unlink. destruct (lookup_l_nolink st (d_path d) (same_nolink g st _ Hst Hn)) as [-> |[er ->]].
    - rewrite (same_none g st _ Hst Hg). by eexists.
    - by eexists.
  Qed.

  Lemma stale_run : triple I I (accept_from e cs) (λ _, I).
  Proof.
    unfold accept_from. destruct cs as [|c0 l0] eqn:Ecs; [by apply triple_ret|]. rewrite <-Ecs in *. clear Ecs c0 l0.
    assert (∀ c, c ∈ cs → c_op c ≠ ORename) as Hnr by (intros c Hc; destruct (Hset c Hc) as [t ->]; done).
    eapply triple_bind with (Q := λ r st, I st ∧ r.2 ≡ₚ cs).
    { intros st Hst. destruct (pure_pretend e 0 cs st) as [E1 E2]. rewrite E1, E2. split; [constructor|]. split; [done|].
      intros r Hr. split; [done|]. by eapply pretend_result. }
    intros r1. apply triple_pure. intros HP. eapply triple_bind with (Q := λ _, I); [|intros r2; by apply triple_ret].
    assert (∀ c, c ∈ r1.2 → c ∈ cs) as Hin by (intros c; by rewrite HP).
    unfold accept_pass.
    eapply triple_bind with (Q := λ r st, I st ∧ ∀ p, p ∈ r.2 → was_staged p).
    { apply accum_keeps. intros c Hc. apply elem_of_sort_by in Hc. destruct (Hset c (Hin c Hc)) as [t Ht].
      unfold accept_remove. rewrite Ht. apply triple_ret; [done|]. intros st Hst. split; [done|].
      intros p Hp. by apply elem_of_nil in Hp. }
    intros r. apply triple_pure. intros Hr.
    set (l2 := sort_by by_reverse_source (sort_by by_reverse_source r1.2)).
    assert (∀ c, c ∈ l2 → c ∈ cs) as Hl2.
    { intros c Hc. apply Hin. unfold l2 in Hc. by rewrite !elem_of_sort_by in Hc. }
    assert (∀ c, c ∈ l2 → c_op c ≠ ORename) as Hnr2 by auto.
    rewrite assign_tmp_id by done.
    eapply triple_bind with (Q := λ _, I).
    { intros st Hst. rewrite premove_skip by done. cbn [o_trace o_fs o_res]. split; [constructor|]. by split. }
    intros [].
    eapply triple_bind with (Q := λ r st, I st ∧ ∀ p, p ∈ r.2 → was_staged p).
    { apply accum_keeps. intros [i c] Hc. apply elem_of_lookup_imap in Hc as (j & x & [= -> ->] & Hx).
      apply elem_of_list_lookup_2, elem_of_sort_by in Hx. apply stale_set. by apply Hl2. }
    intros r3. apply triple_pure. intros Hr3. cbn [app].
    eapply triple_bind with (Q := λ _, I).
    { apply stale_clean. intros p Hp. apply elem_of_app in Hp as [Hp|Hp]; auto. }
    intros []. by apply triple_ret.
  Qed.
End stale.

Theorem C77_second_accept_harmless_partial : ∀ e1 e2 f ub ms inc inc2 pats pats2 sel sel2,
  sandbox_ok f ub ms → env_ok e1 → fresh_uuids e1 f →
  selected e1 f ub inc pats = Ok sel → selected e2 f ub inc2 pats2 = Ok sel2 →
  (∀ c, c ∈ sel2 → c ∈ sel ∧ ∃ t, c_op c = OSet t) →
  let first := accept e1 ub inc pats f in is_ok (o_res first) = true →
  ∀ st, st ∈ states (accept_from e2 sel2 (o_fs first)) → same_contents (o_fs first) st.
Proof.
  intros e1 e2 f ub ms inc inc2 pats pats2 sel sel2 Hok He Hfu Hsel Hsel2 Hsub first Hoks st Hst.
  destruct (selected_plan f ub ms Hok e1 Hfu inc pats sel He Hsel) as [Hplan Hl].
  destruct (final_ok e1 f ub ms inc pats sel Hok He Hfu Hsel Hoks) as (s2 & Hinv & (Hwf2 & Hcset & Hrest) & [Hcl Hgone]).
  fold first in Hcl, Hgone. set (g := o_fs first) in *.
  destruct (stale_run e2 g sel2) with (f := g) as (H1 & H2 & _).
  - intros c Hc. by apply Hsub.
  - intros c d Hc Hd. destruct (Hsub c Hc) as [Hc1 [t Ht]]. split.
    + apply (cleaning_nolink s2 _ g _ Hcl). destruct (pl_staged _ _ _ _ Hplan c d Hc1 Hd) as (n & Hn & _ & Hu).
      apply dirpath_nolink. destruct (staged_kept e1 ub f sel Hplan s2 c d Hinv Hc1 Hd) as (n' & Hn' & _).
      by eapply wf_dirpath.
    + apply Hgone. apply elem_of_staged_paths. exists c, d. split; [done|]. split; [right; by exists t|done].
  - intros c d Hc Hd Hdd. destruct (Hsub c Hc) as [Hc1 [t Ht]].
    destruct (pl_staged _ _ _ _ Hplan c d Hc1 Hd) as (nst & Hn & Edd & Hu).
    destruct (final_set e1 f ub ms inc pats sel Hok He Hfu Hsel c nst Hoks Hc1 ltac:(by exists t)) as (n & En & Hse).
    { intros d' Hd'. congruence. }
    fold first g in En. split; [by eapply wf_dirpath; [apply Hcl|]|]. exists n. split; [done|].
    rewrite Edd, d_is_dir_of in Hdd. apply is_kdir_true in Hdd. destruct Hse as [<- _]. done.
  - done.
  - unfold states in Hst. apply elem_of_app in Hst as [Hst|Hst]; [by eapply Forall_forall in H1|].
    apply elem_of_list_singleton in Hst as ->. exact H2.
Qed.
Print Assumptions C77_second_accept_harmless_partial.

(** A new file and a new directory, accepted twice: the second finds the staged entries gone. *)
Definition twice_fs : fs := list_to_map
  [ ([], dir0); (["home"], dir0); (["home"; "f"], file_ "old");
    (["sbx"], dir0); (["sbx"; "up"], dir0); (["sbx"; "up"; "F4"], dir0); (["sbx"; "up"; "F4"; "home"], dir0);
    (["sbx"; "up"; "F4"; "home"; "f"], file_ "work"); (["sbx"; "up"; "F4"; "new"], opaque_dir) ].
Lemma twice_ok : sandbox_ok twice_fs demo_ub [[]].
Proof. apply sandbox_okb_spec. vm_compute. reflexivity. Qed.
Lemma twice_fresh : fresh_uuids demo_env twice_fs.
Proof. apply (fresh_suffixb_spec _ _ "uuid"); [done|]. vm_compute. reflexivity. Qed.
Example C77_nonvacuous : ∃ sel, selected demo_env twice_fs demo_ub true ["/"] = Ok sel ∧ length sel = 3 ∧
  (∀ c, c ∈ sel → c ∈ sel ∧ ∃ t, c_op c = OSet t) ∧
  let first := accept demo_env demo_ub true ["/"] twice_fs in is_ok (o_res first) = true ∧
  o_fs first !! ["home"; "f"] = Some (file_ "work") ∧
  2 ≤ length (states (accept_from demo_env sel (o_fs first))) ∧
  is_ok (o_res (accept_from demo_env sel (o_fs first))) = false.
Proof.
  eexists. split; [vm_compute; reflexivity|]. split; [reflexivity|]. split.
  { intros c Hc. split; [exact Hc|]. repeat (apply elem_of_cons in Hc as [-> |Hc]; [eexists; reflexivity|]).
    by apply elem_of_nil in Hc. }
  cbv zeta. split; [vm_compute; reflexivity|]. split; [vm_compute; reflexivity|].
  split; [vm_compute; repeat constructor|vm_compute; reflexivity].
Qed.
