(** * C01 and C27 for sandboxes in which directories were renamed *)
From Verif Require Export RenamedDoable RenamedCheck Props_RenameSets.

Section sandbox.
  Context (e : env) (f : fs) (ub m : path) (dev udev : N) (pats : list string) (Hok : renamed_ok f ub m dev).
  Context (Hcwd : cwd_ok f ub m (e_cwd e)) (Hid : identifiers_ok (e_uuid e) f) (Hud : one_device f ub udev) (He : env_ok e).
  Context (Hpats : selects_all e f ub pats).
  #[local] Notation U := (upper_dir ub m).
  #[local] Notation src := (kernel_source f ub m).
  #[local] Notation away := (renamed_away f ub m).
  #[local] Notation o := (accept e ub true pats f).

  (** What [accept_doable] says, also when there is nothing to do. *)
  Lemma accepted' : ∃ l all, changes e f ub true = Ok all ∧ staged_list f ub m l ∧ all_listed f ub m l all ∧ is_ok (o_res o) = true ∧
    (∀ q, under ub q = false → (∀ c, c ∈ all → is_set c → c_dest c ≠ q) →
       arranged (without f (removals all)) (moves all) (moves all) q (o_fs o !! q)) ∧
    (∀ c u n, c ∈ all → is_set c → c_staged c = Some (details_of u n) → f !! u = Some n →
       ∃ n', o_fs o !! c_dest c = Some n' ∧ same_entry n n') ∧
    (∀ q, under ub q = true → staged_in all q → o_fs o !! q = None).
  Proof.
    destruct (all_changes f ub m dev Hok e He) as (l & all & Hc & Hl & Hall). exists l, all. split; [done|]. split; [done|]. split; [done|].
    assert (selected e f ub true pats = Ok all) as Hsel by (unfold selected; rewrite Hc; cbn [rbind]; by rewrite (Hpats all Hc)).
    destruct all as [|c0 all0].
    - unfold accept. rewrite (bind_get_ok _ _ f []) by done. rewrite (Hpats [] Hc). cbn [o_res o_fs ret_]. split; [done|]. split; [|split].
      + intros q _ _. unfold removals, moves. cbn [omap list_omap]. rewrite without_nil. split.
        * intros m' r _ (H & _). by apply elem_of_nil in H.
        * done.
      + intros c u n H. by apply elem_of_nil in H.
      + intros q _ (c & d & H & _). by apply elem_of_nil in H.
    - pose proof (all_doable e f ub m dev Hok l _ Hl Hall Hcwd Hid) as Hdb.
      destruct (accept_doable e f ub dev udev true pats _ (so_wf _ _ _ (ro_storage _ _ _ _ Hok)) He Hsel ltac:(done) Hdb Hud) as (H1 & H2 & H3 & H4 & _).
      split; [done|]. split; [done|]. split; [done|]. intros q Hu. by destruct (H4 q Hu) as [H _].
  Qed.
  (** And what it says about every state on the way. *)
  Lemma accepting (all : list change) : changes e f ub true = Ok all → ∀ st, st ∈ states o →
    ((∀ q n, under ub q = true → f !! q = Some n → st !! q = Some n) ∧
      ∀ p k, arranged (without f (removals all)) (moves all) (moves all) p (Some k) → keeps f all st p k) ∨
    ∀ q, under ub q = false → st !! q = o_fs o !! q.
  Proof.
    intros Hc st. destruct (all_changes f ub m dev Hok e He) as (l & all' & Hc' & Hl & Hall).
    assert (all' = all) as -> by congruence. clear Hc'.
    assert (selected e f ub true pats = Ok all) as Hsel by (unfold selected; rewrite Hc; cbn [rbind]; by rewrite (Hpats all Hc)).
    destruct all as [|c0 all0].
    - unfold accept. rewrite (bind_get_ok _ _ f []) by done. rewrite (Hpats [] Hc). unfold states. cbn [o_trace o_fs ret_ app].
      intros ->%elem_of_list_singleton. by right.
    - pose proof (all_doable e f ub m dev Hok l _ Hl Hall Hcwd Hid) as Hdb.
      destruct (accept_doable e f ub dev udev true pats _ (so_wf _ _ _ (ro_storage _ _ _ _ Hok)) He Hsel ltac:(done) Hdb Hud) as (_ & _ & _ & _ & H).
      apply H.
  Qed.
  Lemma accepted : ∃ l all, staged_list f ub m l ∧ all_listed f ub m l all ∧ is_ok (o_res o) = true ∧
    (∀ q, under ub q = false → (∀ c, c ∈ all → is_set c → c_dest c ≠ q) →
       arranged (without f (removals all)) (moves all) (moves all) q (o_fs o !! q)) ∧
    (∀ c u n, c ∈ all → is_set c → c_staged c = Some (details_of u n) → f !! u = Some n →
       ∃ n', o_fs o !! c_dest c = Some n' ∧ same_entry n n') ∧
    (∀ q, under ub q = true → staged_in all q → o_fs o !! q = None).
  Proof. destruct accepted' as (l & all & _ & H). by exists l, all. Qed.
End sandbox.

(** *** C01 with renamed directories *)
(** Accepting everything, with any number of renamed directories (also one inside another, into
    new directories, with changes below them, swapped or rotated), makes the host below the mount
    point look like the sandbox did; everything else on the host is unchanged; and what remains in
    the storage are whiteouts with nothing left to delete. *)
Theorem C01_renamed_directories_partial : ∀ e f ub m dev udev pats, renamed_ok f ub m dev → cwd_ok f ub m (e_cwd e) →
  identifiers_ok (e_uuid e) f → one_device f ub udev → env_ok e → selects_all e f ub pats →
  let o := accept e ub true pats f in
  is_ok (o_res o) = true ∧
  (∀ s, s ≠ [] → under ub (m ++ s) = false → same_view (renamed_view f ub m s) (o_fs o !! (m ++ s))) ∧
  (∀ p, under ub p = false → under m p = false ∨ p = m → o_fs o !! p = f !! p) ∧
  (∀ s n, staged_at f ub m s n → o_fs o !! (upper_dir ub m ++ s) = None ∨
     whiteout n = true ∧ (f !! kernel_source f ub m s = None ∨ renamed_away f ub m (kernel_source f ub m s))).
Proof.
  intros e f ub m dev udev pats Hok Hcwd Hid Hud He Hpats. cbv zeta.
  destruct (accepted e f ub m dev udev pats Hok Hcwd Hid Hud He Hpats) as (l & all & Hl & Hall & H1 & H2 & H3 & H4).
  set (g := o_fs (accept e ub true pats f)) in *. split; [exact H1|]. clear H1.
  assert (∀ sb r, base f ub m sb r → under ub (m ++ sb ++ r) = false → (∀ c, c ∈ all → is_set c → c_dest c ≠ m ++ sb ++ r) →
     g !! (m ++ sb ++ r) = place f ub m all sb r) as Hplace.
  { intros sb r Hb Hu Hno. apply (found_place f ub m l all Hl Hall sb r _ Hb). by apply H2. }
  assert (∀ s n, staged_at f ub m s n → (redirect n = None → whiteout n = true) → ∀ c, c ∈ all → is_set c → c_dest c ≠ m ++ s) as Hnoset.
  { intros s n [_ Hn] Hw c Hc Hset. destruct (sets_installed f ub m l all Hl Hall c Hc Hset) as (s' & n' & [_ Hn'] & Hr & Hnw & -> & _).
    intros E. apply app_inv_head in E as ->. assert (n' = n) as -> by congruence. rewrite Hw in Hnw; done. }
  assert (∀ s, f !! (upper_dir ub m ++ s) = None → ∀ c, c ∈ all → is_set c → c_dest c ≠ m ++ s) as Hunst.
  { intros s Hn c Hc Hset. destruct (sets_installed f ub m l all Hl Hall c Hc Hset) as (s' & n' & [_ Hn'] & Hr & Hnw & -> & _).
    intros E. apply app_inv_head in E as ->. congruence. }
  split; [|split].
  - intros s Hne Hu. destruct (base_exists f ub m s) as (sb & r & -> & Hb).
    destruct (f !! (upper_dir ub m ++ sb ++ r)) as [n|] eqn:En.
    + assert (staged_at f ub m (sb ++ r) n) as Hs by done.
      rewrite (view_staged f ub m dev Hok _ n Hs). destruct (whiteout n) eqn:Ew.
      * rewrite Hplace by (done || by apply (Hnoset _ n)). rewrite (place_lost f ub m l all Hl Hall sb r Hb); [done|].
        rewrite <-(base_src f ub m (ro_storage _ _ _ _ Hok) sb r Hb). by apply (whiteout_lost f ub m dev Hok sb r n).
      * destruct (redirect n) as [rd|] eqn:Er.
        -- assert (renamed_at f ub m (sb ++ r) n) as Hr by (split; [done|by eexists]).
           assert (r = []) as -> by (destruct r as [|x r]; [done|]; by destruct (proj2 Hb (x :: r) [] n ltac:(by rewrite app_nil_r))).
           rewrite Hplace by (done || (apply (Hnoset _ n); [done|congruence])). rewrite app_nil_r in *.
           pose proof (place_kept f ub m dev Hok l all Hl Hall sb [] Hb) as Hp. rewrite app_nil_r in Hp. rewrite Hp.
           ++ destruct (ro_source _ _ _ _ Hok sb n Hr) as (k & Hk & Hkd & Hku & Hkg & Hkp). rewrite Hk.
              destruct (ef_redirect n (ro_format _ _ _ _ Hok sb n Hs) rd Er) as [Hnd _]. unfold same_view, same_entry.
              rewrite Hkd, Hnd. done.
           ++ by apply (renamed_kept f ub m dev Hok sb n).
        -- destruct (installed_sets f ub m l all Hl Hall _ n Hs Er Ew) as (c & Hc & Hset & Hd & Hcs).
           destruct (H3 c _ n Hc Hset Hcs En) as (n' & Hn' & Hsame). rewrite Hd in Hn'. rewrite Hn'. exact Hsame.
    + destruct (path_snoc_case r) as [-> |(r0 & c & ->)].
      { exfalso. rewrite app_nil_r in *. destruct (proj1 Hb) as [?|[n [[_ Hn] _]]]; [done|congruence]. }
      rewrite Hplace by (done || by apply Hunst). pose proof (base_up f ub m sb r0 [c] Hb) as Hb0.
      pose proof (view_unstaged f ub m dev Hok (sb ++ r0) c) as Hv. rewrite <-!app_assoc in Hv. rewrite (Hv En).
      destruct (lower_dir f ub m (sb ++ r0)) as [lo|] eqn:El.
      * destruct (low_src f ub m (ro_storage _ _ _ _ Hok) _ _ El) as [-> _]. pose proof (base_src f ub m (ro_storage _ _ _ _ Hok) sb r0 Hb0) as Es.
        destruct (f !! (kernel_source f ub m (sb ++ r0) ++ [c])) as [k|] eqn:Ek.
        -- rewrite (place_kept f ub m dev Hok l all Hl Hall sb (r0 ++ [c]) Hb).
           ++ rewrite app_assoc, <-Es, Ek. apply same_view_refl.
           ++ rewrite app_assoc, <-Es. apply (shown_kept f ub m dev Hok sb r0 c k Hb0 El); [by rewrite <-app_assoc|done].
        -- rewrite (place_missing f ub m l all Hl Hall sb (r0 ++ [c]) Hb); [done|]. by rewrite app_assoc, <-Es.
      * rewrite (place_lost f ub m l all Hl Hall sb (r0 ++ [c]) Hb); [done|].
        rewrite app_assoc, <-(base_src f ub m (ro_storage _ _ _ _ Hok) sb r0 Hb0). by apply (hidden_lost f ub m dev Hok sb r0 Hb0 El).
  - intros p Hu Hp.
    assert (∀ q s n, staged_at f ub m s n → under (kernel_source f ub m s) q = true → under m q = true ∧ q ≠ m) as Hbelow.
    { intros q s n Hs Hq. destruct (src_below f ub m dev Hok s n Hs) as (x & r & E). rewrite E in Hq.
      apply under_spec in Hq as [t ->]. rewrite <-app_assoc. split; [apply under_app|]. cbn [app]. intros E'. symmetry in E'.
      rewrite <-(app_nil_r m) in E' at 1. apply app_inv_head in E'. done. }
    assert (¬ (under m p = true ∧ p ≠ m)) as Hout by (intros [? ?]; destruct Hp; congruence).
    destruct (H2 p Hu) as [_ Harr].
    { intros c Hc Hset. destruct (sets_installed f ub m l all Hl Hall c Hc Hset) as (s & n & [Hne _] & _ & _ & -> & _). intros <-.
      apply Hout. split; [apply under_app|]. by apply snoc_ne_self. }
    rewrite Harr.
    + rewrite left_behind_out.
      * apply without_out. rewrite (removals_deleted f ub m l all Hl Hall). intros (s & n & Hr & _ & Hq & _). by apply Hout, (Hbelow p s n (proj1 Hr)).
      * intros [y d] Hm'. apply (moves_renamed f ub m l all Hl Hall) in Hm' as (s & n & Hr & -> & ->). cbn [fst].
        destruct (under (kernel_source f ub m s) p) eqn:E; [|done]. destruct Hout. by apply (Hbelow p s n (proj1 Hr)).
    + intros [y d] Hm'. apply (moves_renamed f ub m l all Hl Hall) in Hm' as (s & n & Hr & -> & ->). cbn [snd].
      destruct (under (m ++ s) p) eqn:E; [|done]. destruct Hout. apply under_spec in E as [t ->]. rewrite <-app_assoc. split; [apply under_app|].
      apply snoc_ne_self. destruct Hr as [[? _] _]. by destruct s.
  - intros s n Hs.
    assert (under ub (upper_dir ub m ++ s) = true) as Hu by (unfold upper_dir; rewrite <-app_assoc; apply under_app).
    assert (∀ c, c ∈ all → c_staged c = Some (details_of (upper_dir ub m ++ s) n) → g !! (upper_dir ub m ++ s) = None) as Hgone.
    { intros c Hc Hcs. apply H4; [done|]. exists c, (details_of (upper_dir ub m ++ s) n). split; [done|]. split; [done|]. apply under_refl. }
    destruct (whiteout n) eqn:Ew.
    + destruct (f !! kernel_source f ub m s) as [k|] eqn:Ek; [|right; split; [done|by left]].
      destruct (away_dec f ub m (kernel_source f ub m s)) as [Ha|Hna]; [right; split; [done|by right]|]. left.
      refine (Hgone _ (al_removal _ _ _ _ _ Hall s n _ _ _) _).
      * by apply Hl.
      * split; [split; [done|]; exists k; split; [done|by left]|]. split; [done|]. exists (kernel_source f ub m s), k.
        split; [apply under_refl|]. split; [done|]. reflexivity.
      * cbn [c_staged]. by rewrite decide_True.
    + left. destruct (redirect n) as [r|] eqn:Er.
      * assert (renamed_at f ub m s n) as Hr by (split; [done|by eexists]).
        destruct (al_rename _ _ _ _ _ Hall s n) as (c & Hc & _ & k & _ & Ec); [by apply Hl|done|]. apply (Hgone c Hc). by rewrite Ec.
      * destruct (installed_sets f ub m l all Hl Hall s n Hs Er Ew) as (c & Hc & _ & _ & Hcs). by apply (Hgone c Hc).
Qed.
Print Assumptions C01_renamed_directories_partial.

(** The hypotheses are met: [mkdir /new; mv /a /new/b; echo 2 > /new/b/f; rm /new/b/g;
    echo x > /new/b/k; echo Q > /new/b/sub/q; mv /new/b/in /e; rm -r /gone; chown 5:5 /l; ln -sf f /s;
    mv /x /t; mv /y /x; mv /t /y; rm -r /old; mkdir /old; echo n > /old/n]. *)
Definition view_fs : fs := list_to_map
  [ ([], dir0); (["home"], dir0);
    (["a"], dir0); (["a"; "f"], file_ "1"); (["a"; "g"], file_ "g"); (["a"; "h"], file_ "h");
    (["a"; "in"], dir0); (["a"; "in"; "i"], file_ "i"); (["a"; "sub"], dir0); (["a"; "sub"; "q"], file_ "q"); (["a"; "sub"; "r"], file_ "r");
    (["gone"], dir0); (["gone"; "z"], file_ "z"); (["l"], file_ "l"); (["s"], file_ "s");
    (["x"], dir0); (["x"; "1"], file_ "1"); (["y"], dir0); (["y"; "2"], file_ "2");
    (["old"], dir0); (["old"; "d"], dir0); (["old"; "d"; "z"], file_ "z");
    (["sbx"], dir0); (["sbx"; "up"], dir0); (["sbx"; "up"; "F4"], dir0);
    (["sbx"; "up"; "F4"; "a"], wh);
    (["sbx"; "up"; "F4"; "new"], dir0); (["sbx"; "up"; "F4"; "new"; "b"], rdir "/a");
    (["sbx"; "up"; "F4"; "new"; "b"; "f"], file_ "2"); (["sbx"; "up"; "F4"; "new"; "b"; "g"], wh);
    (["sbx"; "up"; "F4"; "new"; "b"; "k"], file_ "x"); (["sbx"; "up"; "F4"; "new"; "b"; "in"], wh);
    (["sbx"; "up"; "F4"; "new"; "b"; "sub"], dir0); (["sbx"; "up"; "F4"; "new"; "b"; "sub"; "q"], file_ "Q");
    (["sbx"; "up"; "F4"; "e"], rdir "/a/in"); (["sbx"; "up"; "F4"; "gone"], wh);
    (["sbx"; "up"; "F4"; "l"], Node (KFile "l") 420 5 5 1 ∅); (["sbx"; "up"; "F4"; "s"], Node (KLink "f") 511 0 0 1 ∅);
    (["sbx"; "up"; "F4"; "x"], rdir "y"); (["sbx"; "up"; "F4"; "y"], rdir "x");
    (["sbx"; "up"; "F4"; "old"], Node KDir 493 0 0 1 {[ "trusted.overlay.opaque" := "y" ]}); (["sbx"; "up"; "F4"; "old"; "n"], file_ "n") ].
Definition view_env : env := Env (e_glob demo_env) (e_ord demo_env) demo_id ["home"] (e_umask demo_env).
Lemma view_ok : renamed_ok view_fs demo_ub [] 1.
Proof. apply renamed_okb_spec. vm_compute. reflexivity. Qed.
Lemma view_cwd : cwd_ok view_fs demo_ub [] ["home"].
Proof. apply cwd_okb_spec. vm_compute. reflexivity. Qed.
Lemma view_ids : identifiers_ok (e_uuid view_env) view_fs.
Proof. apply demo_id_ok. vm_compute. reflexivity. Qed.
Lemma view_device : one_device view_fs demo_ub 1.
Proof. apply one_deviceb_spec. vm_compute. reflexivity. Qed.
Lemma view_env_ok : env_ok view_env.
Proof. exact demo_env_ok. Qed.
Lemma view_selects : selects_all view_env view_fs demo_ub ["/"].
Proof. apply selects_all_root. intros s. reflexivity. Qed.
Example C01_renamed_nonvacuous : let o := accept view_env demo_ub true ["/"] view_fs in
  is_ok (o_res o) = true ∧
  (∀ s, s ≠ [] → under demo_ub s = false → same_view (renamed_view view_fs demo_ub [] s) (o_fs o !! s)) ∧
  renamed_view view_fs demo_ub [] ["new"; "b"; "h"] = Some (file_ "h") ∧
  renamed_view view_fs demo_ub [] ["new"; "b"; "sub"; "r"] = Some (file_ "r") ∧
  renamed_view view_fs demo_ub [] ["x"; "2"] = Some (file_ "2") ∧
  renamed_view view_fs demo_ub [] ["x"; "1"] = None ∧
  renamed_view view_fs demo_ub [] ["a"; "f"] = None ∧
  renamed_view view_fs demo_ub [] ["e"; "i"] = Some (file_ "i") ∧
  renamed_view view_fs demo_ub [] ["old"; "d"; "z"] = None.
Proof.
  destruct (C01_renamed_directories_partial view_env view_fs demo_ub [] 1 1 ["/"] view_ok view_cwd view_ids view_device view_env_ok view_selects)
    as (H1 & H2 & _). split; [exact H1|]. split; [exact H2|]. split; [vm_compute; reflexivity|]. split; [vm_compute; reflexivity|].
  split; [vm_compute; reflexivity|]. split; [vm_compute; reflexivity|]. split; [vm_compute; reflexivity|]. split; vm_compute; reflexivity.
Qed.
