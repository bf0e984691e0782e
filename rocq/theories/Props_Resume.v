(** * C100: an accept that was interrupted can be completed by running it again. *)
From Verif Require Export Props_View Props_General.

(** ** Specification *)
(** A name that accept makes up for a copy in progress; such a copy may stay behind. *)
Definition leftover (e : env) (p : path) : Prop := ∃ q x, p = q ++ [x] ∧ temp_name e x.
(** C100: whenever an accept of everything is interrupted, accepting everything again succeeds, and the host is then what the sandbox
    showed before the first accept. *)
Definition C100_full : Prop := ∀ (e e2 : env) (f st : fs) (ub : path) (ms : list path) (dev : N) (pats pats2 : list string),
  sandbox_ok f ub ms → acceptable f ub ms → one_device f ub dev → env_ok e → fresh_uuids e f → selects_all e f ub pats →
  st ∈ states (accept e ub true pats f) →
  env_ok e2 → fresh_uuids e2 st → selects_all e2 st ub pats2 →
  let o := accept e2 ub true pats2 st in
  is_ok (o_res o) = true ∧
  (∀ m s, owns ms m (m ++ s) → s ≠ [] → under ub (m ++ s) = false → ¬ leftover e (m ++ s) →
     same_view (sandbox_view f ub m s) (o_fs o !! (m ++ s))) ∧
  (∀ p, under ub p = false → ¬ leftover e p → (∀ m s, p = m ++ s → owns ms m p → s = []) → o_fs o !! p = f !! p).

(** Sandboxes for which it holds: no symlink is staged or changed, no mount point is itself changed or in the storage, and there is no
    opaque directory inside another one. *)
Record simple_changes (f : fs) (ub : path) (ms : list path) : Prop := {
  sc_links : ∀ m s n, m ∈ ms → staged_at f ub m s n → is_klink (n_kind n) = false ∧
    ∀ k, f !! (m ++ s) = Some k → is_klink (n_kind k) = false;
  sc_mounts : ∀ m s n m', m ∈ ms → m' ∈ ms → staged_at f ub m s n → m ++ s ≠ m';
  sc_storage : ∀ m, m ∈ ms → under ub m = false;
  sc_opaque : ∀ m s n m' s' n', m ∈ ms → m' ∈ ms → staged_at f ub m s n → staged_at f ub m' s' n' → opaque n = true → opaque n' = true →
    under (m ++ s) (m' ++ s') = true → m ++ s = m' ++ s';
}.
Definition nothing_opaque (f : fs) (ub : path) (ms : list path) : Prop := ∀ m s n, m ∈ ms → staged_at f ub m s n → opaque n = false.

(** ** An interrupted state is a sandbox that can be accepted *)
Section resume.
  Context (e : env) (f : fs) (ub : path) (ms : list path) (pats : list string) (sel : list change).
  Context (Hok : sandbox_ok f ub ms) (Hac : acceptable f ub ms) (He : env_ok e) (Hfu : fresh_uuids e f) (Hsc : simple_changes f ub ms).
  Context (Hl : ∀ c, c ∈ sel → lists f ub ms c).

  Let Hst : storage_ok f ub ms := sb_storage _ _ _ Hok.
  Let Hwf : wf_tree f := so_wf _ _ _ Hst.

  Lemma dest_owned (c : change) : c ∈ sel → ∃ m s, c_dest c = m ++ s ∧ owns ms m (m ++ s) ∧ s ≠ [].
  Proof.
    intros Hc. destruct (Hl c Hc) as (m & s & n & Hm & Hs & H). pose proof (sb_host _ _ _ Hok m s n Hm Hs) as Hho.
    assert (m ++ s = c_dest c → ∃ m s, c_dest c = m ++ s ∧ owns ms m (m ++ s) ∧ s ≠ []) as Hown.
    { intros <-. exists m, s. split; [done|]. split; [apply Hho|apply Hs]. }
    destruct H as [(Hr & q & k & Hu & Hk & ->)|[(_ & _ & ->)|(_ & _ & ->)]]; [|by apply Hown|by apply Hown]. cbn [c_dest].
    pose proof (removal_hides f ub ms m s n Hm Hs Hr) as Hh. destruct (ho_owner _ _ _ _ _ _ Hho) as (_ & _ & O3).
    apply under_spec in Hu as [r ->]. exists m, (s ++ r). rewrite app_assoc. split; [done|]. split.
    - split; [done|]. split; [rewrite <-app_assoc; apply under_app|]. intros m2 Hm2 Hu2.
      destruct (under_comparable m2 (m ++ s) ((m ++ s) ++ r)) as [H|H]; [done|apply under_app|by apply O3|].
      pose proof (ho_above_mount _ _ _ _ _ _ Hho m2 Hm2 H). congruence.
    - intros E. apply app_eq_nil in E as [-> _]. by destruct Hs.
  Qed.
  Lemma mount_not_dest (c : change) (m : path) : c ∈ sel → m ∈ ms → c_dest c ≠ m.
  Proof.
    intros Hc Hm E. destruct (Hl c Hc) as (m' & s & n & Hm' & Hs & H).
    destruct H as [(Hr & q & k & Hu & Hk & ->)|[(_ & _ & ->)|(_ & _ & ->)]]; cbn [c_dest] in E.
    - subst q. pose proof (removal_hides f ub ms m' s n Hm' Hs Hr) as Hh.
      rewrite (ho_above_mount _ _ _ _ _ _ (sb_host _ _ _ Hok m' s n Hm' Hs) m Hm Hu) in Hh. discriminate Hh.
    - by apply (sc_mounts _ _ _ Hsc m' s n m).
    - by apply (sc_mounts _ _ _ Hsc m' s n m).
  Qed.
  Lemma tmp_leftover (c : change) (p : path) : c ∈ sel → is_tmp e c p → leftover e p.
  Proof.
    intros Hc (Hs & _ & i & ->). destruct (dest_owned c Hc) as (m & s & -> & _ & Hne).
    destruct (path_snoc_case s) as [-> |(q & x & ->)]; [done|]. rewrite app_assoc, with_extension_snoc.
    eexists _, _. split; [reflexivity|]. exists i. apply ends_with_spec. by eexists.
  Qed.
  Lemma not_leftover (q : path) : is_Some (f !! q) → ¬ leftover e q.
  Proof. intros Hq (r & x & -> & i & Hi). rewrite (fu_new e f Hfu i r x Hq) in Hi. discriminate Hi. Qed.
  Lemma staged_named (m s : path) (n : node) : staged_at f ub m s n → ¬ leftover e (m ++ s).
  Proof.
    intros [Hne Hn] (r & x & E & i & Hi). destruct (path_snoc_case s) as [-> |(q & y & ->)]; [done|].
    rewrite app_assoc in E. apply app_inj_tail in E as [_ ->]. rewrite app_assoc in Hn.
    rewrite (fu_new e f Hfu i _ x ltac:(by eexists)) in Hi. discriminate Hi.
  Qed.
  Lemma under_upper (m s : path) : under ub (upper_dir ub m ++ s) = true.
  Proof. unfold upper_dir. rewrite <-app_assoc. apply under_app. Qed.

  (** Facts about an interrupted state. *)
  Context (st : fs) (Hwst : wf_tree st).
  Context (Hub : st !! ub = f !! ub) (Hin : ∀ q n, under ub q = true → st !! q = Some n → f !! q = Some n).
  Context (Hk : ∀ q n, under ub q = false → st !! q = Some n → known e f sel q n) (Hdv : devices f st).
  Context (Hmt : ∀ m, m ∈ ms → st !! m = f !! m).
  Context (Hcase : (∀ q, under ub q = true → st !! q = f !! q) ∨ nothing_opaque f ub ms).

  Lemma staged_back (m s : path) (n : node) : staged_at st ub m s n → staged_at f ub m s n.
  Proof. intros [H1 H2]. split; [done|]. apply Hin; [apply under_upper|done]. Qed.
  (** What stands where an entry is staged. *)
  Lemma spot (m s : path) (n k : node) : m ∈ ms → staged_at f ub m s n → st !! (m ++ s) = Some k →
    (∃ k0, f !! (m ++ s) = Some k0 ∧ n_kind k = n_kind k0) ∨ (n_kind k = n_kind n ∧ whiteout n = false).
  Proof.
    intros Hm Hs Hkk. pose proof (sb_host _ _ _ Hok m s n Hm Hs) as Hho.
    destruct (Hk _ _ (ho_storage _ _ _ _ _ _ Hho) Hkk) as [(k0 & H1 & H2)|[(c & d & nst & Hc & Hset & E & Hd & Hn & H2)|(c & Hc & Ht & _)]].
    - left. by exists k0.
    - right. apply (set_of f ub ms) in Hset as (m' & s' & n' & Hm' & Hs' & Hw & _ & E' & Ec); [|by apply Hl].
      rewrite E' in E. destruct (staged_unique f ub ms Hok m m' s s' n n' Hm Hm' Hs Hs' E) as (<- & <- & <-).
      rewrite Ec in Hd. cbn in Hd. injection Hd as <-. cbn in Hn. destruct Hs as [_ Hs]. rewrite Hs in Hn. injection Hn as <-. done.
    - destruct (staged_named m s n Hs). by eapply tmp_leftover.
  Qed.
  Lemma root_back (m s r : path) (n : node) : m ∈ ms → staged_at f ub m s n → removal_root st m s n → is_Some (f !! ((m ++ s) ++ r)) →
    removal_root f m s n.
  Proof.
    intros Hm Hs (k & Hkk & Hr) [k1 Hk1].
    assert (∃ k0, f !! (m ++ s) = Some k0 ∧ (r = [] ∨ n_kind k0 = KDir)) as (k0 & Hk0 & Hdir).
    { destruct r as [|x r]; [rewrite app_nil_r in Hk1; exists k1; auto|].
      apply wf_prefix in Hk1 as (k0 & ? & ?); [exists k0; auto|done|done]. }
    exists k0. split; [done|]. destruct Hr as [Hr|[Hr|[Hr1 Hr2]]]; [auto|auto|]. right. right. split; [done|].
    destruct (spot m s n k Hm Hs Hkk) as [(k0' & H1 & H2)|[H1 _]]; [congruence|]. rewrite Hr2 in H1. by rewrite <-H1 in Hr1.
  Qed.
  Lemma resume_storage : storage_ok st ub ms.
  Proof.
    split.
    - exact Hwst.
    - rewrite Hub. apply Hst.
    - intros m Hm. rewrite (Hmt m Hm). by apply Hst.
    - intros c n Hn. eapply (so_child _ _ _ Hst). apply Hin; [apply under_app|exact Hn].
    - intros p n Hn Hu. eapply (so_utf8 _ _ _ Hst); [|done]. by apply Hin.
  Qed.
  Lemma resume_sandbox : sandbox_ok st ub ms.
  Proof.
    split; [exact resume_storage| |].
    { intros m s n Hm Hs. eapply (sb_entry _ _ _ Hok m s); [done|by apply staged_back]. }
    intros m s n Hm Hs'. pose proof (staged_back m s n Hs') as Hs. pose proof (sb_host _ _ _ Hok m s n Hm Hs) as Hho.
    destruct (sc_links _ _ _ Hsc m s n Hm Hs) as [Hnl Hhl].
    assert (∀ k, st !! (m ++ s) = Some k → is_klink (n_kind k) = false) as Hno.
    { intros k Hkk. destruct (spot m s n k Hm Hs Hkk) as [(k0 & H1 & ->)|[-> _]]; [by apply Hhl|done]. }
    split; try apply Hho.
    - intros k Hnk Hno' Hkk. destruct (spot m s n k Hm Hs Hkk) as [(k0 & H1 & H2)|[-> _]]; [|by left].
      destruct (ho_merged _ _ _ _ _ _ Hho k0 Hnk Hno' H1) as [H|(s1 & r & n1 & E & Hr & [Hs1 Hn1] & Ho)]; [left; congruence|].
      right. destruct Hcase as [Hc|Hc].
      + exists s1, r, n1. split; [done|]. split; [done|]. split; [|done]. split; [done|]. rewrite Hc; [done|apply under_upper].
      + rewrite (Hc m s1 n1 Hm (conj Hs1 Hn1)) in Ho. discriminate Ho.
    - intros t k _ Hkk Hlk. pose proof (Hno k Hkk) as H. rewrite Hlk in H. discriminate H.
    - intros t k _ Hkk Hlk. pose proof (Hno k Hkk) as H. rewrite Hlk in H. discriminate H.
    - intros t k Hkk Hlk. pose proof (Hno k Hkk) as H. rewrite Hlk in H. discriminate H.
  Qed.
  Lemma resume_acceptable : acceptable st ub ms.
  Proof.
    assert (∀ q, deleted_on_host st ub ms q → is_Some (f !! q) → deleted_on_host f ub ms q) as Hdel.
    { intros q (m & s & n & Hm & Hs & Hr & Hu & _) Hq. apply staged_back in Hs. apply under_spec in Hu as [r ->].
      exists m, s, n. split; [done|]. split; [done|]. split; [by eapply root_back|]. split; [apply under_app|done]. }
    assert (∀ q, deleted_on_host st ub ms q → under ub q = false) as Hout.
    { intros q (m & s & n & Hm & Hs & Hr & Hu & _). pose proof (sb_host _ _ _ resume_sandbox m s n Hm Hs) as Hho.
      destruct (under ub q) eqn:E; [|done]. destruct (under_comparable ub (m ++ s) q E Hu) as [H|H].
      - rewrite (ho_storage _ _ _ _ _ _ Hho) in H. discriminate H.
      - rewrite (ho_above_storage _ _ _ _ _ _ Hho) in H; [discriminate H|]. by eapply (removal_hides st ub ms m s). }
    split.
    - intros m s n Hm Hs. apply (ac_staged _ _ _ Hac m s); [done|by apply staged_back].
    - intros q k Hq Hkk. destruct (Hk q k (Hout q Hq) Hkk) as [(k0 & H1 & H2)|[(c & d & nst & Hc & Hset & E & Hd & Hn & H2)|(c & Hc & _ & H2)]].
      + unfold supported. rewrite H2. apply (ac_deleted _ _ _ Hac q k0); [|done]. apply Hdel; [done|by exists k0].
      + unfold supported. rewrite H2. apply (set_of f ub ms) in Hset as (m' & s' & n' & Hm' & Hs' & _ & Hsu & _ & Ec); [|by apply Hl].
        rewrite Ec in Hd. cbn in Hd. injection Hd as <-. cbn in Hn. destruct Hs' as [_ Hs']. rewrite Hs' in Hn. injection Hn as <-. exact Hsu.
      + unfold supported. destruct (n_kind k); done.
    - intros a x k d Hq Hkk Hd. destruct (Hdv a x k d Hkk Hd) as [H|(k0 & d0 & H1 & H2 & H3 & H4)]; [done|].
      rewrite H3, H4. apply (ac_device _ _ _ Hac a x); [|done|done]. apply Hdel; [done|by exists k0].
    - intros m s n m' s' n' Hm Hm' Hs Hs' Hr Hr' Hu. apply staged_back in Hs, Hs'.
      destruct (f !! (m' ++ s')) as [k0|] eqn:E0.
      + apply (ac_nested _ _ _ Hac m s n m' s' n' Hm Hm' Hs Hs'); [| |done].
        * pose proof Hu as Hu'. apply under_spec in Hu' as [r Er]. apply (root_back m s r); [done|done|done|]. rewrite <-Er. by exists k0.
        * apply (root_back m' s' []); [done|done|done|]. rewrite app_nil_r. by exists k0.
      + destruct Hr' as (k' & Hk' & Hr'). destruct (spot m' s' n' k' Hm' Hs' Hk') as [(k0 & H1 & _)|[H1 H2]]; [congruence|].
        assert (opaque n' = true) as Ho'. { destruct Hr' as [H|[H|[H H']]]; [done|congruence|]. rewrite H1 in H'. by rewrite H' in H. }
        destruct (opaque n) eqn:Ho; [by eapply (sc_opaque _ _ _ Hsc m s n m' s' n')|].
        assert (hides n = true) as Hh.
        { destruct Hr as (k & _ & Hr). unfold hides. destruct Hr as [-> |[-> |[-> _]]]; by rewrite ?orb_true_r. }
        destruct (hiding_above f ub ms Hok m' m s' s n' n Hm' Hm Hs' Hs Hh Hu) as [<- [r ->]].
        destruct r as [|x r]; [by rewrite app_nil_r|]. exfalso. destruct Hs' as [_ Hs'], Hs as [_ Hs]. rewrite app_assoc in Hs'.
        apply wf_prefix in Hs' as (n1 & Hn1 & Hd1); [|done|done]. rewrite Hs in Hn1. injection Hn1 as <-.
        unfold hides in Hh. rewrite (whiteout_dir n Hd1), Ho, Hd1 in Hh. discriminate Hh.
  Qed.
End resume.

(** ** What is proved *)
Lemma same_view_trans (a b c : option node) : same_view a b → same_view b c → same_view a c.
Proof.
  destruct a, b, c; cbn; try done. unfold same_entry. intros (A1 & A2 & A3 & A4) (B1 & B2 & B3 & B4).
  rewrite <-A1 in B1, B4. repeat split; try congruence. intros H. rewrite A4, B4; done.
Qed.
Theorem C100_interrupted_partial : ∀ (e e2 : env) (f st : fs) (ub : path) (ms : list path) (dev : N) (pats pats2 : list string),
  sandbox_ok f ub ms → acceptable f ub ms → one_device f ub dev → env_ok e → fresh_uuids e f → selects_all e f ub pats →
  simple_changes f ub ms →
  st ∈ states (accept e ub true pats f) →
  (∀ q, under ub q = true → st !! q = f !! q) ∨ nothing_opaque f ub ms →
  env_ok e2 → fresh_uuids e2 st → selects_all e2 st ub pats2 →
  let o := accept e2 ub true pats2 st in
  is_ok (o_res o) = true ∧
  (∀ m s, owns ms m (m ++ s) → s ≠ [] → under ub (m ++ s) = false → ¬ leftover e (m ++ s) →
     same_view (sandbox_view f ub m s) (o_fs o !! (m ++ s))) ∧
  (∀ p, under ub p = false → ¬ leftover e p → (∀ m s, p = m ++ s → owns ms m p → s = []) → o_fs o !! p = f !! p).
Proof.
  intros e e2 f st ub ms dev pats pats2 Hok Hac Hdev He Hfu Hsel Hsc Hs Hcase He2 Hfu2 Hsel2 o.
  pose proof (so_wf _ _ _ (sb_storage _ _ _ Hok)) as Hwf.
  destruct (changes_complete f ub ms Hok e He) as (all & Hc & Hall).
  assert (selected e f ub true pats = Ok all) as Hsd by (unfold selected; rewrite Hc; simpl; by rewrite (Hsel all Hc)).
  assert (∀ c, c ∈ all → lists f ub ms c) as Hl by (intros c; apply Hall).
  destruct (selected_plan f ub ms Hok e Hfu true pats all He Hsd) as [Hplan _].
  pose proof (run_states e f ub ms true pats all Hok He Hfu Hsd st Hs) as Hrun.
  assert (∀ p, p ∈ staged_paths all → ∃ r, p = ub ++ r ∧ r ≠ []) as Hstg.
  { intros p Hp. apply elem_of_staged_paths in Hp as (c & d & Hc' & _ & Hd & ->).
    destruct (Hl c Hc') as (m & s & n & Hm & [Hne Hsn] & H).
    assert (d_path d = upper_dir ub m ++ s) as ->.
    { destruct H as [(_ & q & k & _ & _ & ->)|[(_ & _ & ->)|(_ & _ & ->)]]; cbn in Hd; [case_decide; [|discriminate Hd]| |]; by injection Hd as <-. }
    exists ([b32_encode (path_str m)] ++ s). unfold upper_dir. by rewrite <-app_assoc. }
  assert (∀ s2, inv e f all s2 → ∀ q, under ub q = true → s2 !! q = f !! q) as Hinub.
  { intros s2 Hi q Hu. apply (inv_frame _ _ _ _ Hi). intros (c & Hc' & Ht). apply (pl_outside _ _ _ _ Hplan c q Hc') in Ht. congruence. }
  (* what the interrupted state has in common with the state of the host part *)
  assert (∃ s2, inv e f all s2 ∧ wf_tree st ∧ (∀ q, under ub q = false → st !! q = s2 !! q) ∧
     (∀ q n, st !! q = Some n → s2 !! q = Some n) ∧ st !! ub = f !! ub ∧
     ((∀ q, under ub q = true → st !! q = f !! q) ∨ (nothing_opaque f ub ms ∧ complete f all s2))) as (s2 & Hi & Hwst & Hout & Hsub & Hubst & Hph).
  { destruct Hrun as [Hi|(s2 & Hi & Hcomp & Hcl)].
    - exists st. split; [done|]. split; [apply Hi|]. split; [done|]. split; [done|]. split; [apply Hinub; [done|apply under_refl]|]. left. by apply Hinub.
    - assert (∀ q, under ub q = false → st !! q = s2 !! q) as Hout.
      { intros q Hq. by apply (cleaning_outside e f ub ms true pats all Hok He Hfu Hsd s2 st q Hcl). }
      exists s2. split; [done|]. split; [apply Hcl|]. split; [done|]. split; [|split].
      + intros q n Hn. destruct (proj2 Hcl q) as [<-|[H _]]; [done|congruence].
      + rewrite <-(Hinub s2 Hi ub (under_refl ub)). destruct (proj2 Hcl ub) as [->|[_ (p & Hp & Hu)]]; [done|]. exfalso.
        destruct (Hstg p Hp) as (r & -> & Hr). apply under_spec in Hu as [x Hx]. apply Hr. rewrite <-app_assoc in Hx.
        rewrite <-(app_nil_r ub) in Hx at 1. apply app_inv_head in Hx. symmetry in Hx. by apply app_eq_nil in Hx as [-> _].
      + destruct Hcase as [H|H]; [by left|by right]. }
  assert (∀ q n, under ub q = true → st !! q = Some n → f !! q = Some n) as Hin.
  { intros q n Hu Hn. rewrite <-(Hinub s2 Hi q Hu). by apply Hsub. }
  assert (∀ q n, under ub q = false → st !! q = Some n → known e f all q n) as Hk by (intros q n _ Hn; by apply (inv_kind _ _ _ _ Hi), Hsub).
  assert (devices f st) as Hdv by (intros a x k d H1 H2; apply (inv_dev _ _ _ _ Hi a x k d); by apply Hsub).
  assert (∀ q, under ub q = false → (∀ c, c ∈ all → c_dest c ≠ q) → ¬ leftover e q → st !! q = f !! q) as Hfr.
  { intros q Hu Hd Hlo. apply (run_frame e f ub ms true pats all Hok He Hfu Hsd); [done|done|]. intros c Hc' [Ht|Ht].
    - apply (Hd c Hc'). symmetry. by apply (touches_dest e f ub ms true pats all Hok He Hfu Hsd).
    - apply Hlo. by eapply (tmp_leftover e f ub ms all Hok Hl). }
  assert (∀ m, m ∈ ms → st !! m = f !! m) as Hmt.
  { intros m Hm. apply Hfr; [by apply Hsc| |].
    - intros c Hc'. by apply (mount_not_dest f ub ms all Hok Hsc Hl).
    - apply (not_leftover e f Hfu). destruct (so_mount _ _ _ (sb_storage _ _ _ Hok) m Hm) as [(d & Hd & _) _]. by exists d. }
  pose proof (resume_sandbox e f ub ms all Hok Hfu Hsc Hl st Hwst Hubst Hin Hk Hmt Hcase) as Hok2.
  pose proof (resume_acceptable e f ub ms all Hok Hac Hfu Hsc Hl st Hwst Hubst Hin Hk Hdv Hmt Hcase) as Hac2.
  assert (one_device st ub dev) as Hdev2 by (intros q n Hu Hn; apply (Hdev q n Hu); by apply Hin).
  destruct (C01_accept_gives_sandbox_view_partial e2 st ub ms dev pats2 Hok2 Hac2 Hdev2 He2 Hfu2 Hsel2) as (R1 & R2 & R3).
  fold o in R1, R2, R3. split; [done|].
  split.
  2:{ intros p Hu Hlo Hp. rewrite R3 by done. apply Hfr; [done| |done]. intros c Hc' E.
      destruct (dest_owned f ub ms all Hok Hl c Hc') as (m & s & E' & Ho & Hne). apply Hne. apply (Hp m s); congruence. }
  intros m s Ho Hne Hu Hlo. eapply same_view_trans; [|by apply R2]. pose proof (proj1 Ho) as Hm.
  destruct (overlay_both f (upper_dir ub m) m s Hwf Hne) as (V1 & V2 & V3).
  destruct (overlay_both st (upper_dir ub m) m s Hwst Hne) as (W1 & W2 & W3).
  fold (sandbox_view f ub m s) in V1, V2, V3. fold (sandbox_view st ub m s) in W1, W2, W3.
  destruct (st !! (upper_dir ub m ++ s)) as [n|] eqn:En.
  { rewrite (W1 n eq_refl), (V1 n (Hin _ n (under_upper ub m s) En)). apply same_view_refl. }
  destruct Hph as [Hsame|[Hno Hcomp]].
  - (* before the clean-up *)
    assert (f !! (upper_dir ub m ++ s) = None) as En' by (by rewrite <-Hsame by apply under_upper).
    specialize (V2 En'). specialize (V3 En'). specialize (W2 eq_refl). specialize (W3 eq_refl).
    destruct (hidden_dec f (upper_dir ub m) s) as [H|H].
    + rewrite V2 by done. rewrite W2; [done|]. destruct H as (s1 & c & r & n & ? & ? & Hn & ?). exists s1, c, r, n.
      rewrite Hsame by apply under_upper. done.
    + rewrite V3 by done. rewrite W3.
      2:{ intros s1 c r n E1 E2 Hn. apply (H s1 c r n E1 E2). by rewrite <-Hsame by apply under_upper. }
      rewrite Hfr; [apply same_view_refl|done| |done].
      intros c Hc' E. destruct (Hl c Hc') as (m' & s' & n' & Hm' & Hs' & Hli).
      assert (m' ++ s' = m ++ s → False) as Hdiff.
      { intros E'. assert (m = m') as <-.
        { eapply (owner_unique ms m m' (m ++ s)); [done|]. rewrite <-E'. apply (sb_host _ _ _ Hok m' s' n' Hm' Hs'). }
        apply app_inv_head in E' as ->. destruct Hs' as [_ Hs']. congruence. }
      destruct Hli as [(Hr & q & k & Hu' & Hkq & ->)|[(_ & _ & ->)|(_ & _ & ->)]]; cbn [c_dest] in E; [|by apply Hdiff|by apply Hdiff].
      subst q. pose proof (removal_hides f ub ms m' s' n' Hm' Hs' Hr) as Hh.
      destruct (root_above f ub ms Hok m s m' s' n' Ho Hm' Hs' Hh Hu') as [<- [r ->]].
      destruct r as [|c0 r]; [apply Hdiff; by rewrite app_nil_r|]. destruct Hs' as [Hne' Hs'].
      rewrite (H s' c0 r n' eq_refl Hne' Hs') in Hh. discriminate Hh.
  - (* during the clean-up *)
    assert (sandbox_view st ub m s = None ∧ sandbox_view f ub m s = None ∨ sandbox_view st ub m s = st !! (m ++ s)) as Hv.
    { specialize (W2 eq_refl). specialize (W3 eq_refl).
      destruct (hidden_dec st (upper_dir ub m) s) as [H|H]; [|right; by apply W3]. left. split; [by apply W2|].
      destruct H as (s1 & c & r & n & E1 & Hne1 & Hn & Hh). apply Hin in Hn; [|apply under_upper].
      apply V2; [|by exists s1, c, r, n]. destruct (f !! (upper_dir ub m ++ s)) as [n0|] eqn:E0; [|done]. exfalso.
      rewrite E1, app_assoc in E0. apply wf_prefix in E0 as (n1 & Hn1 & Hd1); [|done|done]. rewrite Hn in Hn1. injection Hn1 as <-.
      unfold hides in Hh. rewrite (whiteout_dir n Hd1), (Hno m s1 n Hm (conj Hne1 Hn)), Hd1 in Hh. discriminate Hh. }
    destruct Hv as [[-> ->]| ->]; [exact I|]. rewrite Hout by done.
    assert (is_ok (o_res (accept e ub true pats f)) = true) as Hoks by (by apply (accept_all_succeeds e f ub ms dev pats)).
    pose proof (accept_ok_no_error e f ub true pats all Hsd (pl_norename _ _ _ _ Hplan) Hoks) as Herr.
    destruct (merged_complete f ub ms Hok all s2 Hall Herr Hcomp) as [M1 _]. by apply M1.
Qed.
Print Assumptions C100_interrupted_partial.

(** ** What does not hold *)
(** "ln -s d l" in the sandbox; the accept is interrupted when /l is installed and the staged link is still there.  The second accept takes
    the new host link for an old directory that the staged link replaces, and deletes everything in the directory it points to. *)
Definition nl_fs : fs := list_to_map
  [ ([], dir0); (["d"], dir0); (["d"; "x"], file_ "precious");
    (["st"], dir0); (["st"; "F4"], dir0); (["st"; "F4"; "l"], mk (KLink "d") 511 0) ].
Definition nth_state (i : nat) (f : fs) : fs := default f (states (accept demo_env ["st"] true ["/"] f) !! i).
Lemma nth_state_in (i : nat) (f : fs) (l : list fs) : states (accept demo_env ["st"] true ["/"] f) = l → i < length l →
  nth_state i f ∈ states (accept demo_env ["st"] true ["/"] f).
Proof.
  intros El Hi. rewrite <-El in Hi. unfold nth_state.
  destruct (states (accept demo_env ["st"] true ["/"] f) !! i) as [x|] eqn:E.
  - exact (elem_of_list_lookup_2 _ _ _ E).
  - apply lookup_ge_None in E. lia.
Qed.
Theorem C100_refuted : ¬ C100_full.
Proof.
  intros H.
  assert (sandbox_ok nl_fs ["st"] [[]]) as H1 by (apply sandbox_okb_spec; vm_compute; reflexivity).
  assert (acceptable nl_fs ["st"] [[]]) as H2 by (apply acceptableb_spec; vm_compute; reflexivity).
  assert (one_device nl_fs ["st"] 1) as H3 by (apply one_deviceb_spec; vm_compute; reflexivity).
  assert (fresh_uuids demo_env nl_fs) as H4 by (apply (fresh_suffixb_spec _ _ "uuid"); [reflexivity|vm_compute; reflexivity]).
  assert (selects_all demo_env nl_fs ["st"] ["/"]) as H5 by (apply selects_all_root; reflexivity).
  assert (nth_state 0 nl_fs ∈ states (accept demo_env ["st"] true ["/"] nl_fs)) as H6 by (eapply nth_state_in; [reflexivity|apply Nat.ltb_lt; vm_compute; reflexivity]).
  assert (fresh_uuids demo_env (nth_state 0 nl_fs)) as H7 by (apply (fresh_suffixb_spec _ _ "uuid"); [reflexivity|vm_compute; reflexivity]).
  assert (selects_all demo_env (nth_state 0 nl_fs) ["st"] ["/"]) as H8 by (apply selects_all_root; reflexivity).
  destruct (H demo_env demo_env nl_fs (nth_state 0 nl_fs) ["st"] [[]] 1%N ["/"] ["/"] H1 H2 H3 demo_env_ok H4 H5 H6 demo_env_ok H7 H8) as (_ & Hv & _).
  pose proof (Hv [] ["d"; "x"] (owns_root ["d"; "x"]) ltac:(discriminate) eq_refl) as Hp. clear Hv.
  assert (¬ leftover demo_env ["d"; "x"]) as Hn.
  { apply (not_leftover demo_env nl_fs H4). eexists. vm_compute. reflexivity. }
  specialize (Hp Hn). vm_compute in Hp. exact Hp.
Qed.
Print Assumptions C100_refuted.

(** Without links: "rm -r d; mkdir d; echo new > d/a" where there was a /d/a before; the accept is interrupted in the clean-up.  The staged
    d/a is gone, the staged, opaque d is not: the second accept deletes the new /d/a. *)
Definition C100_simple_full : Prop := ∀ (e e2 : env) (f st : fs) (ub : path) (ms : list path) (dev : N) (pats pats2 : list string),
  sandbox_ok f ub ms → acceptable f ub ms → one_device f ub dev → env_ok e → fresh_uuids e f → selects_all e f ub pats →
  simple_changes f ub ms → st ∈ states (accept e ub true pats f) →
  env_ok e2 → fresh_uuids e2 st → selects_all e2 st ub pats2 →
  let o := accept e2 ub true pats2 st in
  ∀ m s, owns ms m (m ++ s) → s ≠ [] → under ub (m ++ s) = false → ¬ leftover e (m ++ s) →
    same_view (sandbox_view f ub m s) (o_fs o !! (m ++ s)).
Definition simple_changesb (f : fs) (ub : path) (ms : list path) : bool :=
  forallb (λ m, negb (under ub m)) ms &&
  on_staged f ub ms (λ m s n, negb (is_klink (n_kind n)) && match f !! (m ++ s) with Some k => negb (is_klink (n_kind k)) | None => true end &&
    forallb (λ m', negb (bool_decide (m ++ s = m'))) ms &&
    (negb (opaque n) || on_staged f ub ms (λ m' s' n', negb (opaque n') || negb (under (m ++ s) (m' ++ s')) || bool_decide (m ++ s = m' ++ s')))).
Lemma simple_changesb_spec (f : fs) (ub : path) (ms : list path) : simple_changesb f ub ms = true → simple_changes f ub ms.
Proof.
  unfold simple_changesb. rewrite andb_true_iff, forallb_forall. intros [Hst H]. pose proof (on_staged_spec _ _ _ _ H) as Hs.
  split.
  - intros m s n Hm Hn. specialize (Hs m s n Hm Hn). cbv beta in Hs. rewrite !andb_true_iff in Hs. destruct Hs as [[[H1 H2] _] _].
    split; [by apply negb_true_iff|]. intros k Hk. rewrite Hk in H2. by apply negb_true_iff.
  - intros m s n m' Hm Hm' Hn. specialize (Hs m s n Hm Hn). cbv beta in Hs. rewrite !andb_true_iff in Hs. destruct Hs as [[_ H3] _].
    rewrite forallb_forall in H3. apply elem_of_list_In in Hm'. specialize (H3 m' Hm'). by apply negb_true_iff, bool_decide_eq_false in H3.
  - intros m Hm. apply elem_of_list_In in Hm. by apply negb_true_iff, Hst.
  - intros m s n m' s' n' Hm Hm' Hn Hn' Ho Ho' Hu. specialize (Hs m s n Hm Hn). cbv beta in Hs. rewrite !andb_true_iff in Hs. destruct Hs as [_ H4].
    rewrite Ho in H4. cbn in H4. pose proof (on_staged_spec _ _ _ _ H4 m' s' n' Hm' Hn') as H5. cbv beta in H5. rewrite Ho', Hu in H5. cbn in H5.
    by apply bool_decide_eq_true in H5.
Qed.
Definition half_fs : fs := list_to_map
  [ ([], dir0); (["d"], dir0); (["d"; "a"], file_ "old");
    (["st"], dir0); (["st"; "F4"], dir0); (["st"; "F4"; "d"], opaque_dir); (["st"; "F4"; "d"; "a"], file_ "new") ].
Theorem C100_simple_refuted : ¬ C100_simple_full.
Proof.
  intros H.
  assert (sandbox_ok half_fs ["st"] [[]]) as H1 by (apply sandbox_okb_spec; vm_compute; reflexivity).
  assert (acceptable half_fs ["st"] [[]]) as H2 by (apply acceptableb_spec; vm_compute; reflexivity).
  assert (one_device half_fs ["st"] 1) as H3 by (apply one_deviceb_spec; vm_compute; reflexivity).
  assert (fresh_uuids demo_env half_fs) as H4 by (apply (fresh_suffixb_spec _ _ "uuid"); [reflexivity|vm_compute; reflexivity]).
  assert (selects_all demo_env half_fs ["st"] ["/"]) as H5 by (apply selects_all_root; reflexivity).
  assert (simple_changes half_fs ["st"] [[]]) as H0 by (apply simple_changesb_spec; vm_compute; reflexivity).
  assert (nth_state 13 half_fs ∈ states (accept demo_env ["st"] true ["/"] half_fs)) as H6 by (eapply nth_state_in; [reflexivity|apply Nat.ltb_lt; vm_compute; reflexivity]).
  assert (fresh_uuids demo_env (nth_state 13 half_fs)) as H7 by (apply (fresh_suffixb_spec _ _ "uuid"); [reflexivity|vm_compute; reflexivity]).
  assert (selects_all demo_env (nth_state 13 half_fs) ["st"] ["/"]) as H8 by (apply selects_all_root; reflexivity).
  pose proof (H demo_env demo_env half_fs (nth_state 13 half_fs) ["st"] [[]] 1%N ["/"] ["/"] H1 H2 H3 demo_env_ok H4 H5 H0 H6 demo_env_ok H7 H8) as Hv.
  cbv zeta in Hv. pose proof (Hv [] ["d"; "a"] (owns_root ["d"; "a"]) ltac:(discriminate) eq_refl) as Hp. clear Hv.
  assert (¬ leftover demo_env ["d"; "a"]) as Hn.
  { apply (not_leftover demo_env half_fs H4). eexists. vm_compute. reflexivity. }
  specialize (Hp Hn). vm_compute in Hp. exact Hp.
Qed.
Print Assumptions C100_simple_refuted.
(** The file that the first accept had installed is gone, and the second accept reported success. *)
Example C100_simple_loss : let st := nth_state 13 half_fs in
  st !! ["d"; "a"] = Some (mk (KFile "new") 420 1000) ∧ is_ok (o_res (accept demo_env ["st"] true ["/"] st)) = true ∧
  o_fs (accept demo_env ["st"] true ["/"] st) !! ["d"; "a"] = None.
Proof. vm_compute. repeat split. Qed.

(** ** The positive theorem at work *)
(** A file changed, a file deleted, a directory replaced by a file, a directory deleted and recreated, a directory created. *)
Definition work_fs : fs := list_to_map
  [ ([], dir0); (["etc"], dir0); (["etc"; "conf"], file_ "old"); (["etc"; "gone"], file_ "x");
    (["home"], dir0); (["home"; "d"], dir0); (["home"; "d"; "x"], file_ "1"); (["home"; "r"], dir0); (["home"; "r"; "old"], file_ "2");
    (["st"], dir0); (["st"; "F4"], dir0); (["st"; "F4"; "etc"], dir0); (["st"; "F4"; "etc"; "conf"], mk (KFile "new") 2541 7);
    (["st"; "F4"; "etc"; "gone"], wh); (["st"; "F4"; "home"], dir0); (["st"; "F4"; "home"; "d"], file_ "now a file");
    (["st"; "F4"; "home"; "r"], opaque_dir); (["st"; "F4"; "home"; "r"; "new"], file_ "3"); (["st"; "F4"; "opt"], opaque_dir) ].
Definition work_env : env := Env (e_glob demo_env) (λ l, l) (λ _ _, "other") ["home"] 18.
Definition same_storageb (f st : fs) (ub : path) : bool :=
  on_fs f (λ q n, negb (under ub q) || bool_decide (st !! q = Some n)) && on_fs st (λ q n, negb (under ub q) || bool_decide (f !! q = Some n)).
Lemma same_storageb_spec (f st : fs) (ub : path) : same_storageb f st ub = true → ∀ q, under ub q = true → st !! q = f !! q.
Proof.
  unfold same_storageb. rewrite andb_true_iff. intros [H1 H2] q Hq. destruct (f !! q) as [n|] eqn:E.
  - apply (on_fs_spec _ _ H1) in E. rewrite Hq in E. cbn in E. by apply bool_decide_eq_true in E.
  - destruct (st !! q) as [n|] eqn:E'; [|reflexivity]. apply (on_fs_spec _ _ H2) in E'. rewrite Hq in E'. cbn in E'.
    apply bool_decide_eq_true in E'. congruence.
Qed.
Definition resumable (f : fs) (i : nat) : bool :=
  sandbox_okb f ["st"] [[]] && acceptableb f ["st"] [[]] && one_deviceb f ["st"] 1 && fresh_suffixb f "uuid" && simple_changesb f ["st"] [[]] &&
  Nat.ltb i (length (states (accept demo_env ["st"] true ["/"] f))) && fresh_suffixb (nth_state i f) "other" &&
  (same_storageb f (nth_state i f) ["st"] || on_staged f ["st"] [[]] (λ _ _ n, negb (opaque n))).
Lemma resumable_spec (f : fs) (i : nat) : resumable f i = true → let o := accept work_env ["st"] true ["/"] (nth_state i f) in
  is_ok (o_res o) = true ∧ ∀ p, p ≠ [] → under ["st"] p = false → ¬ leftover demo_env p → same_view (sandbox_view f ["st"] [] p) (o_fs o !! p).
Proof.
  unfold resumable. rewrite !andb_true_iff. intros [[[[[[[B1 B2] B3] B4] B5] B6] B7] B8].
  destruct (C100_interrupted_partial demo_env work_env f (nth_state i f) ["st"] [[]] 1 ["/"] ["/"]) as (R1 & R2 & _).
  - by apply sandbox_okb_spec.
  - by apply acceptableb_spec.
  - by apply one_deviceb_spec.
  - exact demo_env_ok.
  - apply (fresh_suffixb_spec _ _ "uuid"); [reflexivity|exact B4].
  - apply selects_all_root. reflexivity.
  - by apply simple_changesb_spec.
  - eapply nth_state_in; [reflexivity|by apply Nat.ltb_lt].
  - apply orb_true_iff in B8 as [B8|B8]; [left; by apply same_storageb_spec|right]. intros m s n Hm Hn.
    pose proof (on_staged_spec _ _ _ _ B8 m s n Hm Hn) as H. by apply negb_true_iff in H.
  - intros l. reflexivity.
  - apply (fresh_suffixb_spec _ _ "other"); [reflexivity|exact B7].
  - apply selects_all_root. reflexivity.
  - split; [exact R1|]. intros p Hp Hu Hlo. apply (R2 [] p); [apply owns_root|exact Hp|exact Hu|exact Hlo].
Qed.
(** The same without the recreated directory. *)
Definition plain_fs : fs := delete ["st"; "F4"; "home"; "r"; "new"] (delete ["st"; "F4"; "home"; "r"] (delete ["st"; "F4"; "opt"] work_fs)).
(** Interrupted in the middle of a copy, whose beginning stays behind; at any moment at all, the clean-up included. *)
Example C100_nonvacuous : resumable work_fs 9 = true ∧ is_Some (nth_state 9 work_fs !! ["etc"; "conf.uuid"]) ∧
  forallb (resumable plain_fs) (seq 0 36) = true ∧ nth_state 33 plain_fs !! ["st"; "F4"; "etc"; "conf"] ≠ plain_fs !! ["st"; "F4"; "etc"; "conf"].
Proof.
  split; [vm_compute; reflexivity|]. split; [eexists; vm_compute; reflexivity|]. split; [vm_compute; reflexivity|].
  vm_compute. discriminate.
Qed.
Example C100_work : let o := accept work_env ["st"] true ["/"] (nth_state 9 work_fs) in
  is_ok (o_res o) = true ∧ ∀ p, p ≠ [] → under ["st"] p = false → ¬ leftover demo_env p → same_view (sandbox_view work_fs ["st"] [] p) (o_fs o !! p).
Proof. exact (resumable_spec work_fs 9 (proj1 C100_nonvacuous)). Qed.
