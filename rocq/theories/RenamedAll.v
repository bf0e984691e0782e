(** * All changes listed for a sandbox with renamed directories *)
From Verif Require Export RenamedList.

Section sandbox.
  Context (f : fs) (ub m : path) (dev : N) (Hok : renamed_ok f ub m dev).
  Let Hst : storage_ok f ub [m] := ro_storage _ _ _ _ Hok.
  Let Hwf : wf_tree f := so_wf _ _ _ Hst.
  #[local] Notation U := (upper_dir ub m).
  #[local] Notation src := (kernel_source f ub m).
  #[local] Notation away := (renamed_away f ub m).

  Record all_listed (l : list (path * node)) (all : list change) : Prop := {
    al_sound : ∀ c, c ∈ all → ∃ s n, (s, n) ∈ l ∧ entry_lists f ub m s n c;
    al_removal : ∀ s n c, (s, n) ∈ l → lists_removal f ub m s n c → c ∈ all;
    al_rename : ∀ s n, (s, n) ∈ l → renamed_at f ub m s n → ∃ c, c ∈ all ∧ lists_rename f ub m s n c;
    al_install : ∀ s n, (s, n) ∈ l → redirect n = None → whiteout n = false → ∃ c, c ∈ all ∧ lists_install f ub m s n c;
    al_arrivals : NoDup (arrivals all);
    al_removals : NoDup (removals all);
    al_moves : NoDup (moves all).*1;
  }.

  Lemma removed_of (s : path) (n : node) (c : change) (q : path) : entry_lists f ub m s n c → removed_path c = Some q →
    lists_removal f ub m s n c ∧ under (src s) q = true ∧ is_Some (f !! q).
  Proof.
    intros [Hl|[(_ & k & _ & ->)|(_ & _ & ty & ->)]] E; [|done|done]. pose proof Hl as (_ & _ & q' & k & Hu & Hk & ->).
    cbn in E. injection E as <-. split; [done|]. split; [done|]. by eexists.
  Qed.
  Lemma arrival_of (s : path) (n : node) (c : change) (d : path) : entry_lists f ub m s n c → arrival c = Some d → d = m ++ s.
  Proof.
    intros [(_ & _ & q' & k & Hu & Hk & ->)|[(_ & k & _ & ->)|(_ & _ & ty & ->)]] E; cbn in E; [done|by injection E as <-|by injection E as <-].
  Qed.
  Lemma move_of_listed (s : path) (n : node) (c : change) (y d : path) : entry_lists f ub m s n c → move_of c = Some (y, d) →
    renamed_at f ub m s n ∧ y = src s ∧ d = m ++ s.
  Proof.
    intros [(_ & _ & q' & k & Hu & Hk & ->)|[(Hr & k & _ & ->)|(_ & _ & ty & ->)]] E; [done| |done].
    cbn in E. by injection E as <- <-.
  Qed.

  Lemma removals_block (s : path) (n : node) (rs : list change) : (∀ c, c ∈ rs → lists_removal f ub m s n c) →
    removals rs = c_dest <$> rs ∧ arrivals rs = [] ∧ moves rs = [].
  Proof.
    induction rs as [|c rs IH]; intros H; [done|]. destruct IH as (I1 & I2 & I3); [intros c' Hc'; apply H; by right|].
    destruct (H c ltac:(left)) as (_ & _ & q & k & _ & _ & ->).
    unfold removals, arrivals, moves in *. cbn. rewrite I1, I2, I3. done.
  Qed.

  Lemma all_block (e : env) (rp : list path) (l : list (path * node)) : env_ok e → (∀ p, p ∈ rp ↔ away p) →
    NoDup l.*1 → (∀ x, x ∈ l → staged_at f ub m x.1 x.2) →
    ∃ css, rmap (entry_changes e f rp) ((λ x, rentry f ub m x.1 x.2) <$> l) = Ok css ∧ all_listed l (mjoin css).
  Proof.
    intros He Hrp. induction l as [|[s n] l IH]; intros Hnd Hl.
    { exists []. split; [done|]. 
      split; [intros c H|intros s n c H|intros s n H|intros s n H|constructor|constructor|constructor]; by apply elem_of_nil in H. }
    rewrite fmap_cons in Hnd. apply NoDup_cons in Hnd as [Hs0 Hnd]. cbn [fst] in Hs0.
    destruct IH as (css & Hcss & Hall); [done|intros x Hx; apply Hl; by right|].
    pose proof (Hl (s, n) ltac:(left)) as Hs. cbn [fst snd] in Hs.
    destruct (entry_listed f ub m dev Hok e rp s n He Hs Hrp) as (rs & ss & Hent & HNr & Hrs & Hss).
    exists ((rs ++ ss) :: css). split.
    { rewrite fmap_cons. cbn [rmap fst snd]. rewrite Hent. cbn [rbind]. by rewrite Hcss. }
    change (mjoin ((rs ++ ss) :: css)) with ((rs ++ ss) ++ mjoin css).
    destruct (removals_block s n rs ltac:(intros c Hc; by apply Hrs)) as (B1 & B2 & B3).
    assert (∀ c, c ∈ rs ++ ss → entry_lists f ub m s n c) as Hblock.
    { intros c [Hc|Hc]%elem_of_app; [left; by apply Hrs|]. destruct Hss as [[-> _]|[(k & -> & Hk & Hr)|(ty & -> & H1 & H2)]].
      - by apply elem_of_nil in Hc.
      - apply elem_of_list_singleton in Hc as ->. right. left. split; [done|]. by exists k.
      - apply elem_of_list_singleton in Hc as ->. right. right. split; [done|]. split; [done|]. by exists ty. }
    destruct Hall as [A1 A2 A3 A4 A5 A6 A7]. split.
    - intros c [Hc|Hc]%elem_of_app; [exists s, n; split; [left|by apply Hblock]|].
      destruct (A1 c Hc) as (s' & n' & H1 & H2). exists s', n'. split; [by right|done].
    - intros s' n' c [[= -> ->]|H]%elem_of_cons Hc; apply elem_of_app; [left; apply elem_of_app; left; by apply Hrs|right].
      by apply (A2 s' n').
    - intros s' n' [[= -> ->]|H]%elem_of_cons Hr.
      + pose proof (renamed_not_whiteout f ub m dev Hok _ _ Hr) as Hw.
        destruct Hss as [[_ ?]|[(k & -> & Hk & _)|(ty & -> & H1 & H2)]]; [congruence| |destruct Hr as [_ [? ?]]; congruence].
        eexists. split; [apply elem_of_app; left; apply elem_of_app; right; left|]. split; [done|]. by exists k.
      + destruct (A3 s' n' H Hr) as (c & Hc & H'). exists c. split; [apply elem_of_app; by right|done].
    - intros s' n' [[= -> ->]|H]%elem_of_cons Hr Hw.
      + destruct Hss as [[_ ?]|[(k & -> & Hk & _ & [? ?])|(ty & -> & H1 & H2)]]; [congruence|congruence|].
        eexists. split; [apply elem_of_app; left; apply elem_of_app; right; left|]. split; [done|]. split; [done|]. by exists ty.
      + destruct (A4 s' n' H Hr Hw) as (c & Hc & H'). exists c. split; [apply elem_of_app; by right|done].
    - rewrite arrivals_app. apply NoDup_app. split; [|split; [|done]].
      + rewrite arrivals_app, B2. destruct Hss as [[-> _]|[(k & -> & Hk & _)|(ty & -> & H1 & H2)]]; cbn; [constructor|apply NoDup_singleton|apply NoDup_singleton].
      + intros d Hd Hd'. unfold arrivals in Hd, Hd'. apply elem_of_list_omap in Hd as (c & Hc & E). apply elem_of_list_omap in Hd' as (c' & Hc' & E').
        pose proof (arrival_of s n c d (Hblock c Hc) E) as E1. destruct (A1 c' Hc') as (s' & n' & Hin & H').
        pose proof (arrival_of s' n' c' d H' E') as E2. rewrite E1 in E2. apply app_inv_head in E2 as ->.
        apply Hs0, elem_of_list_fmap. by exists (s', n').
    - rewrite removals_app. apply NoDup_app. split; [|split; [|done]].
      + rewrite removals_app, B1. destruct Hss as [[-> _]|[(k & -> & Hk & _)|(ty & -> & H1 & H2)]]; cbn; by rewrite app_nil_r.
      + intros d Hd Hd'. apply elem_of_removals in Hd as (c & Hc & E). apply elem_of_removals in Hd' as (c' & Hc' & E').
        destruct (removed_of s n c d (Hblock c Hc) E) as ((Hr & Hna & _) & Hu & _). destruct (A1 c' Hc') as (s' & n' & Hin & H').
        destruct (removed_of s' n' c' d H' E') as ((Hr' & Hna' & _) & Hu' & _). apply Hs0, elem_of_list_fmap. exists (s', n'). split; [|done].
        cbn [fst]. destruct (under_comparable _ _ _ Hu Hu') as [H|H].
        * by apply (roots_apart f ub m dev Hok s s' n n').
        * symmetry. by apply (roots_apart f ub m dev Hok s' s n' n).
    - rewrite moves_app, fmap_app. apply NoDup_app. split; [|split; [|done]].
      + rewrite moves_app, B3. destruct Hss as [[-> _]|[(k & -> & Hk & _)|(ty & -> & H1 & H2)]]; cbn; [constructor|apply NoDup_singleton|constructor].
      + intros y Hy Hy'. apply elem_of_list_fmap in Hy as ([y0 d] & E0 & Hy). apply elem_of_list_fmap in Hy' as ([y1 d'] & E1 & Hy').
        cbn [fst] in E0, E1. subst y0 y1. apply elem_of_moves in Hy as (c & Hc & E). apply elem_of_moves in Hy' as (c' & Hc' & E').
        destruct (move_of_listed s n c y d (Hblock c Hc) E) as (Hr & Hy1 & _). destruct (A1 c' Hc') as (s' & n' & Hin & H').
        destruct (move_of_listed s' n' c' y d' H' E') as (Hr' & Hy2 & _).
        pose proof (renamed_low f ub m dev Hok s n Hr) as L1. pose proof (renamed_low f ub m dev Hok s' n' Hr') as L2.
        rewrite <-Hy1 in L1. rewrite <-Hy2 in L2. pose proof (ro_once _ _ _ _ Hok s s' y L1 L2) as ->.
        apply Hs0, elem_of_list_fmap. by exists (s', n').
  Qed.

  Theorem all_changes (e : env) : env_ok e → ∃ l all, changes e f ub true = Ok all ∧ staged_list f ub m l ∧ all_listed l all.
  Proof.
    intros He. unfold changes. destruct (entries_listed f ub m dev Hok e He) as (l & -> & Hl). cbn [rbind].
    destruct (renamed_paths_spec f ub m dev Hok l) as (rp & -> & Hrp); [intros x Hx; by apply Hl|]. cbn [rbind].
    destruct (all_block e rp l He) as (css & -> & Hall).
    - intros p. rewrite Hrp. split.
      + intros (s & n & _ & Hr & E). by exists s, n.
      + intros (s & n & Hr & E). exists s, n. split; [|done]. apply Hl. apply Hr.
    - apply Hl.
    - intros x Hx. by apply Hl.
    - cbn [rbind]. by exists l, (mjoin css).
  Qed.

  (** ** In terms of removals and moves *)
  Section listed.
    Context (l : list (path * node)) (all : list change) (Hl : staged_list f ub m l) (Hall : all_listed l all).
    Lemma listed_staged (c : change) : c ∈ all → ∃ s n, staged_at f ub m s n ∧ entry_lists f ub m s n c.
    Proof. intros Hc. destruct (al_sound _ _ Hall c Hc) as (s & n & H & H'). exists s, n. split; [by apply Hl in H|done]. Qed.
    Lemma removals_deleted (q : path) : q ∈ removals all ↔ deleted f ub m q.
    Proof.
      rewrite elem_of_removals. split.
      - intros (c & Hc & E). destruct (listed_staged c Hc) as (s & n & Hs & H). destruct (removed_of s n c q H E) as ((Hr & Hna & _) & Hu & Hk).
        by exists s, n.
      - intros (s & n & Hr & Hna & Hu & [k Hk]). eexists. split.
        + apply (al_removal _ _ Hall s n); [apply Hl; apply Hr|]. split; [done|]. split; [done|]. exists q, k. split; [done|]. split; [done|]. reflexivity.
        + done.
    Qed.
    Lemma moves_renamed (y d : path) : (y, d) ∈ moves all ↔ ∃ s n, renamed_at f ub m s n ∧ y = src s ∧ d = m ++ s.
    Proof.
      rewrite elem_of_moves. split.
      - intros (c & Hc & E). destruct (listed_staged c Hc) as (s & n & Hs & H). exists s, n. by apply (move_of_listed s n c).
      - intros (s & n & Hr & -> & ->). destruct (al_rename _ _ Hall s n) as (c & Hc & H); [apply Hl; apply Hr|done|].
        exists c. split; [done|]. destruct H as (_ & k & _ & ->). done.
    Qed.
    Lemma sets_installed (c : change) : c ∈ all → is_set c → ∃ s n, staged_at f ub m s n ∧ redirect n = None ∧ whiteout n = false ∧
      c_dest c = m ++ s ∧ c_staged c = Some (details_of (U ++ s) n).
    Proof.
      intros Hc [t Ht]. destruct (listed_staged c Hc) as (s & n & Hs & H). exists s, n. split; [done|].
      destruct H as [(_ & _ & q' & k & Hu & Hk & ->)|[(_ & k & _ & ->)|(H1 & H2 & ty & ->)]]; done.
    Qed.
    Lemma installed_sets (s : path) (n : node) : staged_at f ub m s n → redirect n = None → whiteout n = false →
      ∃ c, c ∈ all ∧ is_set c ∧ c_dest c = m ++ s ∧ c_staged c = Some (details_of (U ++ s) n).
    Proof.
      intros Hs Hr Hw. destruct (al_install _ _ Hall s n) as (c & Hc & H); [by apply Hl|done|done|]. exists c. split; [done|].
      destruct H as (_ & _ & ty & ->). split; [by eexists|]. done.
    Qed.
    Lemma arrivals_staged (q : path) : q ∈ arrivals all → ∃ s n, staged_at f ub m s n ∧ q = m ++ s ∧ whiteout n = false.
    Proof.
      intros Hq. unfold arrivals in Hq. apply elem_of_list_omap in Hq as (c & Hc & E). destruct (listed_staged c Hc) as (s & n & Hs & H).
      exists s, n. split; [done|]. split; [by apply (arrival_of s n c)|].
      destruct H as [(_ & _ & q' & k & Hu & Hk & ->)|[(Hr & k & _ & ->)|(H1 & H2 & ty & ->)]]; [done| |done].
      by apply (renamed_not_whiteout f ub m dev Hok s n).
    Qed.
  End listed.
End sandbox.
