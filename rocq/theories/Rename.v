(** * What accept does with renamed directories: /repo/src/actions/accept.rs:171-264 and 371-393 *)
From Verif Require Export Props_Redirect.

(** ** Specification: a set of simultaneous moves.
    [m.1] is where a directory was, [m.2] where it is now.  Sources and destinations may be nested
    in one another and a destination may be the source of another move (two directories that
    swapped names). *)
Definition above (p q : path) : bool := under p q && negb (bool_decide (p = q)).

(** What the moves leave at a path. *)
Definition left_behind (f : fs) (mv : list (path * path)) (q : path) : option node :=
  if existsb (λ m, under m.1 q) mv then None else f !! q.
(** What a directory taken from [s] carries at the relative path [r]: its content, without the
    directories that were moved out of it. *)
Definition carried (f : fs) (mv : list (path * path)) (s r : path) : option node :=
  if existsb (λ m, above s m.1 && under m.1 (s ++ r)) mv then None else f !! (s ++ r).

(** [m] is the innermost of the destinations in [dst] around [q]. *)
Definition innermost (dst : list (path * path)) (m : path * path) (q : path) : Prop :=
  m ∈ dst ∧ under m.2 q = true ∧ ∀ m', m' ∈ dst → under m'.2 q = true → under m'.2 m.2 = true.

(** [t] is what is found at [q] once everything in [mv] has left its place and the moves in [dst]
    have arrived. *)
Definition arranged (f : fs) (mv dst : list (path * path)) (q : path) (t : option node) : Prop :=
  (∀ m r, q = m.2 ++ r → innermost dst m q → t = carried f mv m.1 r) ∧
  ((∀ m, m ∈ dst → under m.2 q = false) → t = left_behind f mv q).

(** ** Facts about the specification *)
Lemma above_spec (p q : path) : above p q = true ↔ under p q = true ∧ p ≠ q.
Proof. unfold above. rewrite andb_true_iff, negb_true_iff, bool_decide_eq_false. done. Qed.
Lemma under_above (p q : path) : under p q = true → p = q ∨ above p q = true.
Proof. intros H. destruct (decide (p = q)); [by left|right]. by apply above_spec. Qed.
Lemma above_app (p r : path) : r ≠ [] → above p (p ++ r) = true.
Proof. intros H. apply above_spec. split; [apply under_app|]. intros E. symmetry in E. by apply snoc_ne_self in E. Qed.

Lemma left_behind_cases (f : fs) (mv : list (path * path)) (q : path) :
  (∃ m, m ∈ mv ∧ under m.1 q = true ∧ left_behind f mv q = None) ∨
  ((∀ m, m ∈ mv → under m.1 q = false) ∧ left_behind f mv q = f !! q).
Proof.
  unfold left_behind. destruct (existsb _ mv) eqn:E.
  - left. apply existsb_exists in E as (m & Hm & Hu). exists m. split; [by apply elem_of_list_In|]. done.
  - right. split; [|done]. intros m Hm. destruct (under m.1 q) eqn:Hu; [|done].
    assert (existsb (λ m0 : path * path, under m0.1 q) mv = true) as E'; [|congruence].
    apply existsb_exists. exists m. split; [by apply elem_of_list_In|done].
Qed.
Lemma left_behind_out (f : fs) (mv : list (path * path)) (q : path) :
  (∀ m, m ∈ mv → under m.1 q = false) → left_behind f mv q = f !! q.
Proof. intros H. destruct (left_behind_cases f mv q) as [(m & Hm & Hu & _)|[_ ->]]; [|done]. by rewrite H in Hu. Qed.
Lemma left_behind_in (f : fs) (mv : list (path * path)) (m : path * path) (q : path) :
  m ∈ mv → under m.1 q = true → left_behind f mv q = None.
Proof. intros Hm Hu. destruct (left_behind_cases f mv q) as [(m' & _ & _ & ->)|[H _]]; [done|]. by rewrite (H m Hm) in Hu. Qed.
Lemma left_behind_none (f : fs) (mv : list (path * path)) (q : path) : f !! q = None → left_behind f mv q = None.
Proof. intros H. unfold left_behind. by destruct (existsb _ mv). Qed.
Lemma left_behind_ext (f : fs) (mv mv' : list (path * path)) (q : path) :
  (∀ m, m ∈ mv ↔ m ∈ mv') → left_behind f mv q = left_behind f mv' q.
Proof.
  intros H. destruct (left_behind_cases f mv q) as [(m & Hm & Hu & ->)|[Hm ->]].
  - symmetry. apply (left_behind_in f mv' m); [by apply H|done].
  - symmetry. apply left_behind_out. intros m Hm'. apply Hm. by apply H.
Qed.

Lemma carried_cases (f : fs) (mv : list (path * path)) (s r : path) :
  (∃ m, m ∈ mv ∧ above s m.1 = true ∧ under m.1 (s ++ r) = true ∧ carried f mv s r = None) ∨
  ((∀ m, m ∈ mv → above s m.1 = true → under m.1 (s ++ r) = false) ∧ carried f mv s r = f !! (s ++ r)).
Proof.
  unfold carried. destruct (existsb _ mv) eqn:E.
  - left. apply existsb_exists in E as (m & Hm & Hu). apply andb_true_iff in Hu as [H1 H2].
    exists m. split; [by apply elem_of_list_In|]. done.
  - right. split; [|done]. intros m Hm Ha. destruct (under m.1 (s ++ r)) eqn:Hu; [|done].
    assert (existsb (λ m0 : path * path, above s m0.1 && under m0.1 (s ++ r)) mv = true) as E'; [|congruence].
    apply existsb_exists. exists m. split; [by apply elem_of_list_In|]. by rewrite Ha, Hu.
Qed.
Lemma carried_self (f : fs) (mv : list (path * path)) (s : path) : carried f mv s [] = f !! s.
Proof.
  destruct (carried_cases f mv s []) as [(m & Hm & Ha & Hu & _)|[_ ->]]; rewrite app_nil_r in *; [|done].
  apply above_spec in Ha as [Ha Hne]. exfalso. apply Hne. by apply under_antisym.
Qed.
Lemma carried_ext (f : fs) (mv mv' : list (path * path)) (s r : path) :
  (∀ m, m ∈ mv ↔ m ∈ mv') → carried f mv s r = carried f mv' s r.
Proof.
  intros H. destruct (carried_cases f mv s r) as [(m & Hm & Ha & Hu & ->)|[Hm ->]];
  destruct (carried_cases f mv' s r) as [(m' & Hm' & Ha' & Hu' & ->)|[Hm' ->]]; try done.
  - apply H in Hm. by rewrite (Hm' m Hm Ha) in Hu.
  - apply H in Hm'. by rewrite (Hm m' Hm' Ha') in Hu'.
Qed.

Lemma innermost_exists (dst : list (path * path)) (q : path) :
  (∀ m, m ∈ dst → under m.2 q = false) ∨ ∃ m, innermost dst m q.
Proof.
  induction dst as [|m dst IH].
  - left. intros m Hm. by apply elem_of_nil in Hm.
  - destruct (under m.2 q) eqn:Hu.
    + right. destruct IH as [IH|(m1 & H1 & H2 & H3)].
      * exists m. split; [by left|]. split; [done|]. intros m' Hm' Hu'.
        apply elem_of_cons in Hm' as [-> |Hm']; [apply under_refl|]. by rewrite (IH m' Hm') in Hu'.
      * destruct (under_comparable _ _ _ Hu H2) as [Hc|Hc].
        -- exists m1. split; [by right|]. split; [done|]. intros m' Hm' Hu'.
           apply elem_of_cons in Hm' as [-> |Hm']; [done|]. by apply H3.
        -- exists m. split; [by left|]. split; [done|]. intros m' Hm' Hu'.
           apply elem_of_cons in Hm' as [-> |Hm']; [apply under_refl|].
           eapply under_trans; [|exact Hc]. by apply H3.
    + destruct IH as [IH|(m1 & H1 & H2 & H3)].
      * left. intros m' Hm'. apply elem_of_cons in Hm' as [-> |Hm']; [done|]. by apply IH.
      * right. exists m1. split; [by right|]. split; [done|]. intros m' Hm' Hu'.
        apply elem_of_cons in Hm' as [-> |Hm']; [congruence|]. by apply H3.
Qed.

(** The specification determines what is at every path. *)
Lemma arranged_det (f : fs) (mv dst : list (path * path)) (q : path) (t t' : option node) :
  arranged f mv dst q t → arranged f mv dst q t' → t = t'.
Proof.
  intros [H1 H2] [H1' H2']. destruct (innermost_exists dst q) as [H|(m & Hm)].
  - by rewrite (H2 H), (H2' H).
  - pose proof Hm as (_ & Hu & _). apply under_spec in Hu as [r Hr]. by rewrite (H1 m r Hr Hm), (H1' m r Hr Hm).
Qed.
Lemma arranged_ext (f : fs) (mv mv' dst dst' : list (path * path)) (q : path) (t : option node) :
  (∀ m, m ∈ mv ↔ m ∈ mv') → (∀ m, under m.2 q = true → m ∈ dst ↔ m ∈ dst') →
  arranged f mv dst q t → arranged f mv' dst' q t.
Proof.
  intros Hmv Hd [H1 H2]. split.
  - intros m r Hr (Hm & Hu & Hall). rewrite <-(carried_ext f mv mv') by done. apply H1; [done|].
    split; [by apply Hd|]. split; [done|]. intros m' Hm' Hu'. apply Hall; [by apply Hd|done].
  - intros H. rewrite <-(left_behind_ext f mv mv') by done. apply H2. intros m Hm.
    destruct (under m.2 q) eqn:Hu; [|done]. rewrite <-Hu. apply H. by apply Hd.
Qed.

(** ** Phases 2 and 3 on the moves alone *)
Section moves.
  Context (f : fs) (ub cwd : path) (dev : N) (mv : list (path * path)) (tau : path * path → path).
  Hypothesis Hwf : wf_tree f.
  Hypothesis Hcwd : ∃ d, f !! cwd = Some d ∧ n_kind d = KDir ∧ n_dev d = dev.
  Hypothesis Hcwd1 : ∀ m, m ∈ mv → under m.1 cwd = false.
  Hypothesis Hcwd2 : ∀ m, m ∈ mv → under m.2 cwd = false.
  Hypothesis Hsrc : ∀ m, m ∈ mv → m.1 ≠ [] ∧ parent_dev f m.1 = dev ∧ ∃ n, f !! m.1 = Some n ∧ n_kind n = KDir ∧ n_dev n = dev.
  Hypothesis Hsrc_inj : ∀ m m', m ∈ mv → m' ∈ mv → m.1 = m'.1 → m = m'.
  Hypothesis Hdst_inj : ∀ m m', m ∈ mv → m' ∈ mv → m.2 = m'.2 → m = m'.
  Hypothesis Htau : ∀ m, m ∈ mv → ∃ x, tau m = cwd ++ [x] ∧ comp_ok x ∧ f !! tau m = None.
  Hypothesis Htau_inj : ∀ m m', m ∈ mv → m' ∈ mv → tau m = tau m' → m = m'.
  Hypothesis Htau_dst : ∀ m m', m ∈ mv → m' ∈ mv → under (tau m) m'.2 = false.
  Lemma tau_apart (m m' : path * path) : m ∈ mv → m' ∈ mv → m ≠ m' → under (tau m) (tau m') = false.
  Proof.
    intros Hm Hm' Hne. destruct (Htau m Hm) as (x & E & _). destruct (Htau m' Hm') as (y & E' & _).
    rewrite E, E'. apply siblings. intros Exy. apply Hne. apply Htau_inj; [done|done|]. congruence.
  Qed.
  Lemma tau_fresh (m : path * path) (r : path) : m ∈ mv → f !! (tau m ++ r) = None.
  Proof.
    intros Hm. destruct (f !! (tau m ++ r)) as [n|] eqn:E; [|done].
    destruct (wf_is_Some_prefix f (tau m) r n Hwf E) as [k Hk]. destruct (Htau m Hm) as (_ & _ & _ & H). congruence.
  Qed.
  Lemma tau_not_src (m : path * path) (q : path) : m ∈ mv → is_Some (f !! q) → under (tau m) q = false.
  Proof.
    intros Hm [n Hn]. destruct (under (tau m) q) eqn:E; [|done]. apply under_spec in E as [r ->].
    by rewrite (tau_fresh m r Hm) in Hn.
  Qed.
  Lemma src_not_tau (m m' : path * path) : m ∈ mv → m' ∈ mv → under m.1 (tau m') = false.
  Proof.
    intros Hm Hm'. destruct (Htau m' Hm') as (x & E & _ & Hn). destruct (under m.1 (tau m')) eqn:U; [|done].
    rewrite E in U. apply under_snoc in U as [U|U].
    - destruct (Hsrc m Hm) as (_ & _ & n & Hsn & _). rewrite U, <-E in Hsn. congruence.
    - by rewrite (Hcwd1 m Hm) in U.
  Qed.
  Lemma dst_not_tau (m m' : path * path) : m ∈ mv → m' ∈ mv → under m.2 (tau m') = false.
  Proof.
    intros Hm Hm'. destruct (Htau m' Hm') as (x & E & _ & Hn). destruct (under m.2 (tau m')) eqn:U; [|done].
    rewrite E in U. apply under_snoc in U as [U|U].
    - pose proof (Htau_dst m' m Hm' Hm) as H. rewrite U, <-E, under_refl in H. done.
    - by rewrite (Hcwd2 m Hm) in U.
  Qed.
  Lemma tau_ne_nil (m : path * path) : m ∈ mv → tau m ≠ [].
  Proof. intros Hm E. destruct (Htau m Hm) as (x & E' & _). rewrite E in E'. symmetry in E'. by apply app_nil in E' as [_ ?]. Qed.

  (** After the directories in [d] have been moved aside. *)
  Definition aside (d : list (path * path)) (g : fs) : Prop :=
    wf_tree g ∧ (∀ m r, m ∈ d → g !! (tau m ++ r) = carried f mv m.1 r) ∧
    (∀ q, (∀ m, m ∈ d → under (tau m) q = false) → g !! q = left_behind f d q).

  Lemma aside_step (d : list (path * path)) (m : path * path) (g : fs) :
    (∀ m', m' ∈ d → m' ∈ mv) → m ∈ mv → m ∉ d →
    (∀ m', m' ∈ d → under m'.1 m.1 = false) → (∀ m', m' ∈ mv → above m.1 m'.1 = true → m' ∈ d) →
    aside d g →
    sys_rename m.1 (tau m) g = emit (moved g m.1 (tau m)) ∧ aside (d ++ [m]) (moved g m.1 (tau m)).
  Proof.
    intros Hd Hm Hmd Hlow Hhigh (Hwg & H1 & H2).
    destruct (Hsrc m Hm) as (Hne & Hpd & n & Hn & Hk & Hdev).
    destruct (Htau m Hm) as (x & Ex & Hx & Htn).
    assert (∀ q, is_Some (f !! q) → (∀ m', m' ∈ d → under m'.1 q = false) → g !! q = f !! q) as Hsame.
    { intros q Hq Hm'. rewrite H2.
      - by apply left_behind_out.
      - intros m' Hm''. by apply tau_not_src; [apply Hd|]. }
    assert (g !! m.1 = Some n) as Hgn by (rewrite Hsame; [done|by exists n|done]).
    destruct Hcwd as (dc & Hdc & Hkc & Hdevc).
    assert (g !! cwd = Some dc) as Hgc.
    { rewrite Hsame; [done|by exists dc|]. intros m' Hm'. apply Hcwd1. by apply Hd. }
    assert (under m.1 (tau m) = false) as U1 by (by apply src_not_tau).
    assert (under (tau m) m.1 = false) as U2 by (apply tau_not_src; [done|by exists n]).
    assert (∀ r, g !! (tau m ++ r) = None) as Hgt.
    { intros r. rewrite H2.
      - apply left_behind_none. by apply tau_fresh.
      - intros m' Hm'. destruct (under (tau m') (tau m ++ r)) eqn:U; [|done].
        assert (m' ≠ m) as Hne' by (intros ->; done).
        destruct (under_comparable _ _ _ U (under_app (tau m) r)) as [C|C].
        + by rewrite (tau_apart m' m (Hd m' Hm') Hm Hne') in C.
        + by rewrite (tau_apart m m' Hm (Hd m' Hm') ltac:(done)) in C. }
    assert (dirpath g m.1) as Hdp1 by (by eapply wf_dirpath).
    assert (dirpath g (tau m)) as Hdp2.
    { rewrite Ex. apply dirpath_snoc; [done| |done]. by exists dc. }
    assert (parent_dev g (tau m) = dev) as Hpt.
    { unfold parent_dev. by rewrite Ex, removelast_snoc, Hgc. }
    assert (parent_dev g m.1 = dev) as Hps.
    { unfold parent_dev in Hpd |- *. destruct (path_snoc_case m.1) as [E|(a & y & E)]; [done|].
      rewrite E, removelast_snoc in Hpd |- *. destruct (wf_parent f Hwf a y n ltac:(by rewrite <-E)) as (da & Hda & _).
      rewrite Hsame; [done|by exists da|]. intros m' Hm'. pose proof (Hlow m' Hm') as Hl.
      destruct (under m'.1 a) eqn:U; [|done]. rewrite E in Hl.
      rewrite (under_trans _ _ _ U (under_app a [y])) in Hl. done. }
    split.
    { eapply rename_ok; [exact Hdp1|exact Hdp2|exact Hgn|done|done|by rewrite Hps, Hpt|by rewrite Hps|].
      specialize (Hgt []). rewrite app_nil_r in Hgt. by rewrite Hgt. }
    split; [|split].
    - eapply wf_moved; [done|done|exact Hgn|by apply tau_ne_nil|done|done|].
      apply below_nil. intros s _. apply Hgt.
    - intros m' r Hm'. apply elem_of_app in Hm' as [Hm'|Hm'].
      + assert (m' ≠ m) as Hne' by (intros ->; done).
        rewrite lookup_moved by done.
        assert (path_strip (tau m) (tau m' ++ r) = None) as ->.
        { apply path_strip_None. destruct (under (tau m) (tau m' ++ r)) eqn:U; [|done].
          destruct (under_comparable _ _ _ U (under_app (tau m') r)) as [C|C].
          - by rewrite (tau_apart m m' Hm (Hd m' Hm') ltac:(done)) in C.
          - by rewrite (tau_apart m' m (Hd m' Hm') Hm Hne') in C. }
        assert (under m.1 (tau m' ++ r) = false) as ->.
        { destruct (under m.1 (tau m' ++ r)) eqn:U; [|done].
          destruct (under_comparable _ _ _ U (under_app (tau m') r)) as [C|C].
          - by rewrite (src_not_tau m m' Hm (Hd m' Hm')) in C.
          - rewrite (tau_not_src m' m.1 (Hd m' Hm')) in C; [done|by exists n]. }
        by apply H1.
      + apply elem_of_list_singleton in Hm' as ->. rewrite lookup_moved by done. rewrite path_strip_app.
        rewrite H2.
        2: { intros m' Hm'. destruct (under (tau m') (m.1 ++ r)) eqn:Hu; [|done].
          destruct (under_comparable _ _ _ Hu (under_app m.1 r)) as [C|C].
          - rewrite (tau_not_src m' m.1 (Hd m' Hm')) in C; [done|by exists n].
          - by rewrite (src_not_tau m m' Hm (Hd m' Hm')) in C. }
        destruct (carried_cases f mv m.1 r) as [(m' & Hm' & Ha & Hu & ->)|[Hc ->]].
        * apply (left_behind_in f d m'); [by apply Hhigh|done].
        * apply left_behind_out. intros m' Hm'. destruct (under m'.1 (m.1 ++ r)) eqn:U; [|done].
          destruct (under_comparable _ _ _ U (under_app m.1 r)) as [C|C]; [by rewrite (Hlow m' Hm') in C|].
          apply under_above in C as [C|C].
          -- pose proof (Hlow m' Hm') as Hl. by rewrite <-C, under_refl in Hl.
          -- by rewrite (Hc m' (Hd m' Hm') C) in U.
    - intros q Hq. assert (under (tau m) q = false) as Hqm by (apply Hq; set_solver).
      rewrite lookup_moved by done. apply path_strip_None in Hqm. rewrite Hqm.
      destruct (under m.1 q) eqn:U.
      + symmetry. apply (left_behind_in f (d ++ [m]) m); [set_solver|done].
      + rewrite H2 by (intros m' Hm'; apply Hq; set_solver).
        destruct (left_behind_cases f d q) as [(m' & Hm' & Hu & ->)|[Hc ->]].
        * symmetry. apply (left_behind_in f (d ++ [m]) m'); [set_solver|done].
        * symmetry. apply left_behind_out. intros m' Hm'. apply elem_of_app in Hm' as [Hm'|Hm']; [by apply Hc|].
          by apply elem_of_list_singleton in Hm' as ->.
  Qed.

  (** While the directories are put in place: those in [d] have arrived, the others are aside;
      [ch] are the changes of attributes made so far. *)
  Definition placing (ch : list (path * node)) (d : list (path * path)) (g : fs) : Prop :=
    wf_tree g ∧
    (∀ m r, m ∈ mv → m ∉ d → g !! (tau m ++ r) = carried f mv m.1 r) ∧
    (∀ q n, (q, n) ∈ ch → g !! q = Some n) ∧
    (∀ q, q ∉ ch.*1 → (∀ m, m ∈ mv → m ∉ d → under (tau m) q = false) → arranged f mv d q (g !! q)).

  Lemma placing_init (g : fs) : aside mv g → placing [] [] g.
  Proof.
    intros (Hw & H1 & H2). split; [done|]. split; [by intros m r Hm _; apply H1|].
    split; [intros q n Hq; by apply elem_of_nil in Hq|]. intros q _ Hq. split.
    - intros m r _ (Hm & _). by apply elem_of_nil in Hm.
    - intros _. apply H2. intros m Hm. apply Hq; [done|]. intros H. by apply elem_of_nil in H.
  Qed.

  (** Putting one directory in place, after the changes [ch]. *)
  Lemma place_gen (ch : list (path * node)) (d : list (path * path)) (m : path * path) (g : fs) (p : path) (x : string) :
    m.2 = p ++ [x] → comp_ok x →
    (∀ q n, (q, n) ∈ ch → under m.2 q = false ∧ under (tau m) q = false) →
    ((∃ n, (p, n) ∈ ch ∧ n_kind n = KDir ∧ n_dev n = dev) ∨
     p ∉ ch.*1 ∧ ∃ dp, n_kind dp = KDir ∧ n_dev dp = dev ∧ arranged f mv (filter (λ m', above m'.2 m.2 = true) mv) p (Some dp)) →
    arranged f mv (filter (λ m', above m'.2 m.2 = true) mv) m.2 None →
    (∀ n, (cwd, n) ∈ ch → n_dev n = dev) →
    (∀ m', m' ∈ d → m' ∈ mv) → m ∈ mv → m ∉ d →
    (∀ m', m' ∈ d → under m.2 m'.2 = false) → (∀ m', m' ∈ mv → above m'.2 m.2 = true → m' ∈ d) →
    placing ch d g →
    sys_rename (tau m) m.2 g = emit (moved g (tau m) m.2) ∧ placing ch (d ++ [m]) (moved g (tau m) m.2).
  Proof.
    intros Ep Hx Hch Hpar Haf Hchc Hd Hm Hmd Hlow Hhigh (Hwg & H1 & H2 & H3).
    destruct (Hsrc m Hm) as (Hne & Hpd & n & Hn & Hk & Hdev).
    assert (under (tau m) m.2 = false) as U1 by (by apply Htau_dst).
    assert (under m.2 (tau m) = false) as U2 by (by apply dst_not_tau).
    assert (∀ m', m' ∈ mv → under m'.2 m.2 = true → m' ∈ d ↔ m' ∈ filter (λ m', above m'.2 m.2 = true) mv) as Hflt.
    { intros m' Hm' Hu. rewrite elem_of_list_filter. split.
      - intros Hin. split; [|done]. apply above_spec. split; [done|]. intros E.
        pose proof (Hlow m' Hin) as Hl. by rewrite E, under_refl in Hl.
      - intros [Ha _]. by apply Hhigh. }
    assert (∀ q n', (q, n') ∈ ch → under m.2 q = false) as Hchm.
    { intros q n' Hq. by apply (Hch q n'). }
    assert (g !! tau m = Some n) as Hgn.
    { pose proof (H1 m [] Hm Hmd) as E. rewrite app_nil_r in E. by rewrite E, carried_self. }
    (* a path at or below the destination *)
    assert (∀ m' q, m' ∈ mv → under m.2 q = true ∨ q = p → under (tau m') q = false) as Htq.
    { intros m' q Hm' [Hu| ->].
      - destruct (under (tau m') q) eqn:U; [|done]. destruct (under_comparable _ _ _ U Hu) as [C|C].
        + by rewrite (Htau_dst m' m Hm' Hm) in C.
        + by rewrite (dst_not_tau m m' Hm Hm') in C.
      - destruct (under (tau m') p) eqn:U; [|done]. pose proof (Htau_dst m' m Hm' Hm) as Hl.
        rewrite Ep in Hl. by rewrite (under_trans _ _ _ U (under_app p [x])) in Hl. }
    assert (m.2 ∉ ch.*1) as Hmch.
    { intros Hin. apply elem_of_list_fmap in Hin as ([q n'] & E & Hq). simpl in E. subst q.
      pose proof (Hchm _ _ Hq) as E. by rewrite under_refl in E. }
    assert (g !! m.2 = None) as Hg2.
    { apply (arranged_det f mv d m.2).
      - apply H3; [done|]. intros m' Hm' _. apply Htq; [done|]. left. apply under_refl.
      - eapply arranged_ext; [done| |exact Haf]. intros m' Hu. split.
        + intros Hin. pose proof Hin as Hin'. apply elem_of_list_filter in Hin' as [_ Hm']. by apply Hflt.
        + intros Hin. by apply Hflt; [apply Hd|..]. }
    assert (∃ d', g !! p = Some d' ∧ n_kind d' = KDir ∧ n_dev d' = dev) as (d' & Hgp & Hkd' & Hdd').
    { destruct Hpar as [(n' & Hin & Hkn & Hdn)|(Hout & dp & Hkp & Hdp & Hap)].
      - exists n'. split; [by apply H2|done].
      - exists dp. split; [|done]. apply (arranged_det f mv d p).
        + apply H3; [done|]. intros m' Hm' _. apply Htq; [done|by right].
        + eapply arranged_ext; [done| |exact Hap]. intros m' Hu.
          assert (under m'.2 m.2 = true) as Hu'.
          { rewrite Ep. eapply under_trans; [exact Hu|apply under_app]. }
          split.
          * intros Hin. pose proof Hin as Hin'. apply elem_of_list_filter in Hin' as [_ Hm']. by apply Hflt.
          * intros Hin. by apply Hflt; [apply Hd|..]. }
    assert (dirpath g (tau m)) as Hdp1 by (by eapply wf_dirpath).
    assert (dirpath g m.2) as Hdp2.
    { rewrite Ep. apply dirpath_snoc; [done| |done]. by exists d'. }
    destruct Hcwd as (dc & Hdc & Hkc & Hdevc).
    assert (∃ dc', g !! cwd = Some dc' ∧ n_dev dc' = dev) as (dc' & Hgc & Hdc').
    { destruct (decide (cwd ∈ ch.*1)) as [Hin|Hout].
      - apply elem_of_list_fmap in Hin as ([q n'] & E & Hq). simpl in E. subst q.
        exists n'. split; [by apply H2|]. by apply Hchc.
      - exists dc. split; [|done]. destruct (H3 cwd Hout) as [_ H].
        + intros m' Hm' _. apply tau_not_src; [done|by exists dc].
        + rewrite H; [|intros m' Hm'; apply Hcwd2; by apply Hd]. rewrite left_behind_out; [done|]. by apply Hcwd1. }
    assert (parent_dev g (tau m) = dev) as Hpt.
    { destruct (Htau m Hm) as (y & Ey & _). unfold parent_dev. by rewrite Ey, removelast_snoc, Hgc. }
    assert (parent_dev g m.2 = dev) as Hps.
    { unfold parent_dev. by rewrite Ep, removelast_snoc, Hgp. }
    assert (below g m.2 = []) as Hb.
    { apply below_nil. intros s _. destruct (g !! (m.2 ++ s)) as [k|] eqn:E; [|done].
      destruct (wf_is_Some_prefix g m.2 s k Hwg E) as [k' Hk']. congruence. }
    split.
    { eapply rename_ok; [exact Hdp1|exact Hdp2|exact Hgn|done|done|by rewrite Hps, Hpt|by rewrite Hpt|].
      by rewrite Hg2. }
    split; [|split; [|split]].
    - eapply wf_moved; [done|done|exact Hgn| |done|done|done]. rewrite Ep. by destruct p.
    - intros m' r Hm' Hnot. assert (m' ≠ m ∧ m' ∉ d) as [Hne' Hnd] by (split; [intros ->; apply Hnot; set_solver|set_solver]).
      rewrite lookup_moved by done.
      assert (path_strip m.2 (tau m' ++ r) = None) as ->.
      { apply path_strip_None. destruct (under m.2 (tau m' ++ r)) eqn:U; [|done].
        destruct (under_comparable _ _ _ U (under_app (tau m') r)) as [C|C].
        - by rewrite (dst_not_tau m m' Hm Hm') in C.
        - by rewrite (Htau_dst m' m Hm' Hm) in C. }
      assert (under (tau m) (tau m' ++ r) = false) as ->.
      { destruct (under (tau m) (tau m' ++ r)) eqn:U; [|done].
        destruct (under_comparable _ _ _ U (under_app (tau m') r)) as [C|C].
        - by rewrite (tau_apart m m' Hm Hm' ltac:(done)) in C.
        - by rewrite (tau_apart m' m Hm' Hm ltac:(done)) in C. }
      by apply H1.
    - intros q n' Hq. rewrite lookup_moved by done. pose proof (Hchm q n' Hq) as Hu. apply path_strip_None in Hu.
      rewrite Hu. destruct (Hch q n' Hq) as [_ ->]. by apply H2.
    - intros q Hqch Hq. rewrite lookup_moved by done.
      destruct (path_strip m.2 q) as [s|] eqn:Es.
      + apply path_strip_spec in Es as ->. rewrite H1 by done. split.
        * intros m' r' E (Hin & Hu & Hall).
          assert (m' = m) as ->.
          { apply elem_of_app in Hin as [Hin|Hin]; [|by apply elem_of_list_singleton in Hin].
            specialize (Hall m ltac:(set_solver) (under_app m.2 s)). by rewrite (Hlow m' Hin) in Hall. }
          apply app_inv_head in E as ->. done.
        * intros H. specialize (H m ltac:(set_solver)). by rewrite under_app in H.
      + apply path_strip_None in Es. destruct (under (tau m) q) eqn:Ut.
        * apply under_spec in Ut as [s ->]. split.
          -- intros m' r' E (Hin & Hu & _). exfalso. assert (m' ∈ mv) as Hm'.
             { apply elem_of_app in Hin as [Hin|Hin]; [by apply Hd|]. by apply elem_of_list_singleton in Hin as ->. }
             destruct (under_comparable _ _ _ Hu (under_app (tau m) s)) as [C|C].
             ++ by rewrite (dst_not_tau m' m Hm' Hm) in C.
             ++ by rewrite (Htau_dst m m' Hm Hm') in C.
          -- intros _. symmetry. apply left_behind_none. by apply tau_fresh.
        * eapply arranged_ext; [done| |apply H3; [done|]].
          -- intros m' Hu. rewrite elem_of_app, elem_of_list_singleton. split; [by left|].
             intros [Hin| ->]; [done|]. congruence.
          -- intros m' Hm' Hnd. destruct (decide (m' = m)) as [-> |Hne']; [done|]. apply Hq; [done|]. set_solver.
  Qed.

  (** Installing an object. *)
  Lemma set_gen (ch : list (path * node)) (d : list (path * path)) (q : path) (n : node) (g : fs) :
    q ∉ ch.*1 → (∀ m, m ∈ mv → m ∉ d → under (tau m) q = false) → wf_tree (<[q := n]> g) → placing ch d g →
    placing (ch ++ [(q, n)]) d (<[q := n]> g).
  Proof.
    intros Hqch Hq Hwq (Hwg & H1 & H2 & H3). split; [done|]. split; [|split].
    - intros m r Hm Hmd. rewrite lookup_insert_ne; [by apply H1|]. intros E. pose proof (Hq m Hm Hmd) as H.
      by rewrite E, under_app in H.
    - intros q' n' Hq'. apply elem_of_app in Hq' as [Hq'|Hq'].
      + rewrite lookup_insert_ne; [by apply H2|]. intros <-. apply Hqch. apply elem_of_list_fmap. by exists (q, n').
      + apply elem_of_list_singleton in Hq'. injection Hq' as -> ->. by rewrite lookup_insert.
    - intros q' Hq' Ht. rewrite fmap_app in Hq'. rewrite lookup_insert_ne by (intros <-; apply Hq'; set_solver).
      apply H3; [set_solver|done].
  Qed.

  (** Attribute changes concern directories that the moves leave in place. *)
  Definition loose (ch : list (path * node)) : Prop :=
    ∀ q n, (q, n) ∈ ch → ∃ k, f !! q = Some k ∧ n_kind k = KDir ∧ n_kind n = KDir ∧ n_dev n = n_dev k ∧
      ∀ m, m ∈ mv → under m.1 q = false ∧ under m.2 q = false.

  Hypothesis Hfree : ∀ m, m ∈ mv → ∃ p x d, m.2 = p ++ [x] ∧ comp_ok x ∧ n_kind d = KDir ∧ n_dev d = dev ∧
    arranged f mv (filter (λ m', above m'.2 m.2 = true) mv) p (Some d) ∧
    arranged f mv (filter (λ m', above m'.2 m.2 = true) mv) m.2 None.

  Lemma place_step (ch : list (path * node)) (d : list (path * path)) (m : path * path) (g : fs) :
    loose ch → (∀ m', m' ∈ d → m' ∈ mv) → m ∈ mv → m ∉ d →
    (∀ m', m' ∈ d → under m.2 m'.2 = false) → (∀ m', m' ∈ mv → above m'.2 m.2 = true → m' ∈ d) →
    placing ch d g →
    sys_rename (tau m) m.2 g = emit (moved g (tau m) m.2) ∧ placing ch (d ++ [m]) (moved g (tau m) m.2).
  Proof.
    intros Hch Hd Hm Hmd Hlow Hhigh Hpl.
    destruct (Hfree m Hm) as (p & x & dp & Ep & Hx & Hkp & Hdp & Hap & Haf).
    apply (place_gen ch d m g p x); try done.
    - intros q n Hq. destruct (Hch q n Hq) as (k & Hk & _ & _ & _ & H). split; [by apply H|].
      apply tau_not_src; [done|by exists k].
    - destruct (decide (p ∈ ch.*1)) as [Hin|Hout]; [left|right; eauto 6].
      apply elem_of_list_fmap in Hin as ([q n'] & E & Hq). simpl in E. subst q.
      exists n'. split; [done|]. destruct (Hch p n' Hq) as (k & Hfk & _ & Hk' & Hdk & Hms). split; [done|].
      rewrite Hdk. destruct Hap as [_ Harr]. rewrite left_behind_out in Harr by (intros m' Hm'; by apply Hms).
      assert (Some dp = Some k) as [= <-]; [|done]. rewrite <-Hfk. apply Harr.
      intros m' Hm'. apply elem_of_list_filter in Hm' as [_ Hm']. by apply Hms.
    - intros n Hn. destruct (Hch cwd n Hn) as (k & Hfk & _ & _ & Hdk & _). destruct Hcwd as (dc & Hdc & _ & Hdd). congruence.
  Qed.

  (** Changing the attributes of a directory the moves leave in place. *)
  Lemma attr_step (ch : list (path * node)) (d : list (path * path)) (q : path) (n : node) (g : fs) :
    loose (ch ++ [(q, n)]) → q ∉ ch.*1 → (∀ m', m' ∈ d → m' ∈ mv) → (n_perm n < 4096)%N → placing ch d g →
    g !! q = f !! q ∧ placing (ch ++ [(q, n)]) d (<[q := n]> g).
  Proof.
    intros Hch Hqch Hd Hperm (Hwg & H1 & H2 & H3).
    destruct (Hch q n ltac:(set_solver)) as (k & Hfk & Hkk & Hkn & Hdn & Hms).
    assert (g !! q = f !! q) as Hgq.
    { destruct (H3 q Hqch) as [_ H].
      - intros m Hm _. apply tau_not_src; [done|by exists k].
      - rewrite H; [|intros m Hm; apply Hms; by apply Hd]. apply left_behind_out. intros m Hm. by apply Hms. }
    split; [done|]. split; [|split; [|split]].
    - eapply wf_update; [done|by rewrite Hgq|congruence|done].
    - intros m r Hm Hmd. rewrite lookup_insert_ne; [by apply H1|]. intros E.
      pose proof (tau_fresh m r Hm) as Hf. rewrite <-E in Hf. congruence.
    - intros q' n' Hq'. apply elem_of_app in Hq' as [Hq'|Hq'].
      + rewrite lookup_insert_ne; [by apply H2|]. intros <-. apply Hqch. apply elem_of_list_fmap. by exists (q, n').
      + apply elem_of_list_singleton in Hq'. injection Hq' as -> ->. by rewrite lookup_insert.
    - intros q' Hq' Ht. rewrite fmap_app in Hq'. rewrite lookup_insert_ne by (intros <-; apply Hq'; set_solver).
      apply H3; [set_solver|done].
  Qed.
End moves.
