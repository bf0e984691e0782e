(** * What accept's removals and renames leave where, in a sandbox with renamed directories *)
From Verif Require Export RenamedAll.

Section sandbox.
  Context (f : fs) (ub m : path) (dev : N) (Hok : renamed_ok f ub m dev).
  Context (l : list (path * node)) (all : list change) (Hl : staged_list f ub m l) (Hall : all_listed f ub m l all).
  Let Hst : storage_ok f ub [m] := ro_storage _ _ _ _ Hok.
  Let Hwf : wf_tree f := so_wf _ _ _ Hst.
  #[local] Notation U := (upper_dir ub m).
  #[local] Notation src := (kernel_source f ub m).
  #[local] Notation away := (renamed_away f ub m).
  #[local] Notation mv := (moves all).
  #[local] Notation f1 := (without f (removals all)).

  Definition place (sb r : path) : option node :=
    match sb with [] => left_behind f1 mv (m ++ r) | _ :: _ => carried f1 mv (src sb) r end.

  Lemma f1_deleted (q : path) : deleted f ub m q → f1 !! q = None.
  Proof. intros H. apply without_in. by apply (removals_deleted f ub m l all Hl Hall). Qed.
  Lemma f1_kept (q : path) : ¬ deleted f ub m q → f1 !! q = f !! q.
  Proof. intros H. apply without_out. by rewrite (removals_deleted f ub m l all Hl Hall). Qed.
  Lemma f1_missing (q : path) : f !! q = None → f1 !! q = None.
  Proof. intros H. rewrite without_lookup. by destruct (decide _). Qed.
  Lemma move_away (y : path) : away y ↔ ∃ d, (y, d) ∈ mv.
  Proof.
    split.
    - intros (s & n & Hr & <-). exists (m ++ s). apply (moves_renamed f ub m l all Hl Hall). by exists s, n.
    - intros (d & H). apply (moves_renamed f ub m l all Hl Hall) in H as (s & n & Hr & -> & _). by exists s, n.
  Qed.

  Lemma place_lost (sb r : path) : base f ub m sb r → lost f ub m sb (src sb ++ r) → place sb r = None.
  Proof.
    intros [Hb _] HL. unfold place. destruct sb as [|x sb].
    - change (src [] ++ r) with (m ++ r) in HL. destruct HL as [H|[H|(y & Hy & _ & Hu)]].
      + by apply left_behind_none, f1_missing.
      + by apply left_behind_none, f1_deleted.
      + apply move_away in Hy as [d Hd]. by apply (left_behind_in f1 mv (y, d)).
    - destruct (carried_cases f1 mv (src (x :: sb)) r) as [(m' & _ & _ & _ & ->)|[Hno ->]]; [done|].
      destruct HL as [H|[H|(y & Hy & Hab & Hu)]]; [by apply f1_missing|by apply f1_deleted|].
      apply move_away in Hy as [d Hd]. specialize (Hno (y, d) Hd Hab). cbn [fst] in Hno. congruence.
  Qed.
  Lemma place_kept (sb r : path) : base f ub m sb r → ¬ lost f ub m sb (src sb ++ r) → place sb r = f !! (src sb ++ r).
  Proof.
    intros [Hb _] HL. assert (¬ deleted f ub m (src sb ++ r)) as Hnd by (intros H; apply HL; by right; left).
    unfold place. destruct sb as [|x sb].
    - change (src [] ++ r) with (m ++ r) in *.
      destruct (left_behind_cases f1 mv (m ++ r)) as [([y d] & Hm & Hu & _)|[_ ->]]; [|by apply f1_kept].
      exfalso. apply HL. right. right. exists y. assert (away y) as Hy by (apply move_away; by exists d). split; [done|]. split; [|done].
      destruct Hy as (s & n & Hr & <-). destruct (src_below f ub m dev Hok s n (proj1 Hr)) as (x & t & ->). by apply above_app.
    - destruct (carried_cases f1 mv (src (x :: sb)) r) as [([y d] & Hm & Hab & Hu & _)|[Hno ->]]; [|by apply f1_kept].
      exfalso. apply HL. right. right. exists y. split; [apply move_away; by exists d|]. done.
  Qed.
  Lemma place_missing (sb r : path) : base f ub m sb r → f !! (src sb ++ r) = None → place sb r = None.
  Proof. intros Hb H. apply place_lost; [done|]. by left. Qed.
  Lemma place_Some (sb r : path) (d : node) : base f ub m sb r → place sb r = Some d → f !! (src sb ++ r) = Some d.
  Proof.
    intros Hb Hp. unfold place in Hp. destruct sb as [|x sb].
    - destruct (left_behind_cases f1 mv (m ++ r)) as [(m' & _ & _ & E)|[_ E]]; rewrite E in Hp; [done|].
      apply without_Some in Hp. by destruct Hp.
    - destruct (carried_cases f1 mv (src (x :: sb)) r) as [(m' & _ & _ & _ & E)|[_ E]]; rewrite E in Hp; [done|].
      apply without_Some in Hp. by destruct Hp.
  Qed.

  (** [dst] contains the renames at or above [sb], and none between [sb] and [sb ++ r]. *)
  Lemma arranged_place (dst : list (path * path)) (sb r : path) (t : option node) : base f ub m sb r →
    (∀ x, x ∈ dst → x ∈ mv) → (∀ n, renamed_at f ub m sb n → (src sb, m ++ sb) ∈ dst) →
    (∀ x, x ∈ dst → under x.2 (m ++ sb ++ r) = true → under x.2 (m ++ sb) = true) →
    arranged f1 mv dst (m ++ sb ++ r) t ↔ t = place sb r.
  Proof.
    intros [Hb _] Hsub Hin Hnone. unfold place. destruct sb as [|x sb].
    - assert (∀ m', m' ∈ dst → under m'.2 (m ++ [] ++ r) = false) as Hno.
      { intros m' Hm'. destruct (under m'.2 (m ++ [] ++ r)) eqn:E; [|done]. specialize (Hnone m' Hm' E). exfalso.
        destruct m' as [y d]. apply Hsub in Hm'. apply (moves_renamed f ub m l all Hl Hall) in Hm' as (s & n & Hr & -> & ->).
        cbn [snd] in Hnone. rewrite under_app_both in Hnone. destruct Hr as [[Hs _] _]. destruct s; done. }
      split.
      + intros [_ H]. by apply H.
      + intros ->. split; [|done]. intros m' r' E (Hm' & Hu & _). by rewrite (Hno m' Hm') in Hu.
    - destruct Hb as [?|[n Hr]]; [done|]. specialize (Hin n Hr).
      assert (innermost dst (src (x :: sb), m ++ (x :: sb)) (m ++ (x :: sb) ++ r)) as Hi.
      { split; [done|]. split; [cbn [snd]; rewrite app_assoc; apply under_app|]. exact Hnone. }
      split.
      + intros [H _]. apply (H (src (x :: sb), m ++ (x :: sb)) r); [cbn [snd]; by rewrite <-app_assoc|done].
      + intros ->. split.
        * intros [y d] r' E (Hm' & Hu & Hmax). destruct Hi as (_ & Hu0 & Hmax0). specialize (Hmax _ Hin Hu0). specialize (Hmax0 _ Hm' Hu).
          cbn [fst snd] in *. pose proof (under_antisym _ _ Hmax Hmax0) as <-. rewrite <-app_assoc in E. apply app_inv_head, app_inv_head in E as <-.
          apply Hsub in Hm'. apply (moves_renamed f ub m l all Hl Hall) in Hm' as (s & n' & Hr' & -> & E). apply app_inv_head in E as <-. done.
        * intros H. specialize (H _ Hin). cbn [snd] in H. rewrite app_assoc, under_app in H. done.
  Qed.

  Lemma found_place (sb r : path) (t : option node) : base f ub m sb r → arranged f1 mv mv (m ++ sb ++ r) t ↔ t = place sb r.
  Proof.
    intros Hb. apply arranged_place; [done|done| |].
    - intros n Hr. apply (moves_renamed f ub m l all Hl Hall). by exists sb, n.
    - intros [y d] Hx Hu. apply (moves_renamed f ub m l all Hl Hall) in Hx as (s & n & Hr & -> & ->). cbn [snd] in *.
      rewrite under_app_both in Hu. rewrite under_app_both.
      destruct (under s sb) eqn:E; [done|]. destruct (under_comparable _ _ _ Hu (under_app sb r)) as [H|H]; [congruence|].
      apply under_spec in H as [r1 ->]. rewrite under_app_both in Hu. apply under_spec in Hu as [r2 ->].
      destruct (proj2 Hb r1 r2 n ltac:(done)); [|done]. intros ->. by rewrite app_nil_r, under_refl in E.
  Qed.
  Lemma free_place (sb r : path) (c : string) : base f ub m sb r → (∃ n, renamed_at f ub m (sb ++ r ++ [c]) n) →
    f !! (src (sb ++ r) ++ [c]) = None ∨ away (src (sb ++ r) ++ [c]) →
    arranged f1 mv (filter (λ m', above m'.2 (m ++ sb ++ r ++ [c]) = true) mv) (m ++ sb ++ r ++ [c]) None.
  Proof.
    intros Hb [n Hr] Hfree. rewrite (base_src f ub m (ro_storage _ _ _ _ Hok) sb r Hb) in Hfree.
    assert (∀ x, x ∈ filter (λ m', above m'.2 (m ++ sb ++ r ++ [c]) = true) mv ↔ x ∈ mv ∧ above x.2 (m ++ sb ++ r ++ [c]) = true) as Hf.
    { intros x. rewrite elem_of_list_filter. tauto. }
    set (dst := filter _ mv) in *.
    assert (None = (match sb with [] => left_behind f1 mv (m ++ r ++ [c]) | _ :: _ => carried f1 mv (src sb) (r ++ [c]) end)) as ->.
    { symmetry. destruct sb as [|x sb].
      - destruct Hfree as [H|H]; [by apply left_behind_none, f1_missing; rewrite app_assoc|].
        apply move_away in H as [d Hd]. apply (left_behind_in f1 mv (_, d) _ Hd). cbn [fst]. rewrite src_nil, <-app_assoc. apply under_refl.
      - destruct (carried_cases f1 mv (src (x :: sb)) (r ++ [c])) as [(m' & _ & _ & _ & ->)|[Hno ->]]; [done|].
        destruct Hfree as [H|H]; [by apply f1_missing; rewrite app_assoc|]. apply move_away in H as [d Hd]. exfalso.
        specialize (Hno _ Hd). cbn [fst] in Hno. rewrite <-app_assoc in Hno. rewrite under_refl in Hno. discriminate Hno.
        apply above_app. by destruct r. }
    destruct sb as [|x sb].
    - split.
      + intros [y d] r' E (Hm' & Hu & _). apply Hf in Hm' as [Hm' Hab]. exfalso.
        apply (moves_renamed f ub m l all Hl Hall) in Hm' as (s & n' & Hr' & -> & ->). cbn [snd] in *. cbn [app] in *.
        apply above_spec in Hab as [_ Hne]. rewrite under_app_both in Hu. apply under_snoc in Hu as [-> |Hu]; [done|].
        apply under_spec in Hu as [r2 ->]. destruct (proj2 Hb s r2 n' ltac:(done)); [|done]. by destruct Hr' as [[? _] _].
      + done.
    - destruct (proj1 Hb) as [?|[nb Hnb]]; [done|].
      assert ((src (x :: sb), m ++ (x :: sb)) ∈ dst) as Hin.
      { apply Hf. split; [apply (moves_renamed f ub m l all Hl Hall); by exists (x :: sb), nb|]. cbn [snd]. rewrite app_assoc. apply above_app. by destruct r. }
      split.
      + intros [y d] r' E (Hm' & Hu & Hmax). apply Hf in Hm' as [Hm' Hab].
        apply (moves_renamed f ub m l all Hl Hall) in Hm' as (s & n' & Hr' & -> & ->).
        assert (s = x :: sb) as ->.
        { specialize (Hmax _ Hin). cbn [fst snd] in *. rewrite (app_assoc m), under_app, under_app_both in Hmax. specialize (Hmax eq_refl).
          apply under_spec in Hmax as [r1 ->]. destruct r1 as [|z r1]; [by rewrite app_nil_r|]. exfalso.
          apply above_spec in Hab as [_ Hne]. rewrite !under_app_both in Hu. apply under_snoc in Hu as [E'|Hu]; [by rewrite <-E' in Hne|].
          apply under_spec in Hu as [r2 ->]. by destruct (proj2 Hb (z :: r1) r2 n' ltac:(done)). }
        cbn [fst snd] in *. rewrite <-app_assoc in E. apply app_inv_head, app_inv_head in E as <-. done.
      + intros H. specialize (H _ Hin). cbn [snd] in H. rewrite app_assoc, under_app in H. done.
  Qed.
End sandbox.
