(** * The change list of a redirect-free sandbox, characterised. *)
From Verif Require Export OverlayOk AcceptMain PathFacts.

Lemma wf_comps f p n : wf_tree f → f !! p = Some n → Forall comp_ok p.
Proof.
  intros Hwf Hn. apply Forall_forall. intros c Hc.
  apply elem_of_list_split in Hc as (a & b & ->).
  by apply (wf_dirpath f _ _ Hwf Hn a c b).
Qed.

Lemma lgetxattr_dom f p n name size : wf_tree f → f !! p = Some n →
  lgetxattr f p name size =
    match n_xattr n !! name with
    | None => Err ENODATA
    | Some v => if (N.of_nat (String.length v) <=? size)%N then Ok v else Err ERANGE
    end.
Proof. intros Hwf Hn. unfold lgetxattr. by rewrite (lstat_dom f p n). Qed.

Lemma cstring_utf8 (p : path) : utf8_path p → cstring_path p = p.
Proof. apply lossy_path. Qed.

Lemma from_path_dom f p n : wf_tree f → f !! p = Some n → from_path f p = Ok (Some (details_of p n)).
Proof. intros Hwf Hn. unfold from_path. by rewrite (lstat_dom f p n). Qed.

Lemma is_opaque_dom f p n : wf_tree f → f !! p = Some n → utf8_path p → entry_ok n →
  is_opaque f (details_of p n) = opaque n.
Proof.
  intros Hwf Hn Hu He. unfold is_opaque, opaque. cbn [d_path details_of].
  rewrite cstring_utf8, (lgetxattr_dom f p n) by done. unfold XOPAQUE.
  destruct (n_xattr n !! "trusted.overlay.opaque") as [v|] eqn:E.
  - destruct (eo_opaque n He v E) as [-> ->]. done.
  - rewrite bool_decide_eq_false_2 by done. by rewrite andb_false_r.
Qed.

Lemma land_split r : N.land r 65535 = 0%N ↔ N.land (N.shiftr r 8) 255 = 0%N ∧ N.land r 255 = 0%N.
Proof.
  change 65535%N with (N.ones 16). change 255%N with (N.ones 8).
  rewrite !N.land_ones, N.shiftr_div_pow2.
  change (2 ^ 16)%N with 65536%N. change (2 ^ 8)%N with 256%N.
  pose proof (N.div_mod r 256 ltac:(done)) as H1.
  pose proof (N.div_mod (r / 256) 256 ltac:(done)) as H2.
  pose proof (N.mod_lt r 256 ltac:(done)). pose proof (N.mod_lt (r / 256) 256 ltac:(done)).
  split.
  - intros Hm. apply N.mod_divide in Hm as [q Hq]; [|done].
    assert (r mod 256 = 0)%N as E1 by (subst r; replace (q * 65536)%N with (q * 256 * 256)%N by lia;
      apply N.mod_mul; done).
    split; [|done]. subst r. replace (q * 65536)%N with (q * 256 * 256)%N by lia.
    rewrite N.div_mul by done. by apply N.mod_mul.
  - intros [E1 E2]. apply N.mod_divide; [done|]. exists ((r / 256) / 256)%N. lia.
Qed.

Lemma is_removed_dom f p n : wf_tree f → f !! p = Some n → utf8_path p → entry_ok n →
  is_removed f (details_of p n) = whiteout n.
Proof.
  intros Hwf Hn Hu He. unfold is_removed, whiteout. rewrite d_is_chr_of.
  cbn [d_path details_of d_rdev]. rewrite cstring_utf8, (lgetxattr_dom f p n) by done. unfold XWHITEOUT.
  assert (∀ k, n_kind n = k → is_kfile k = false →
     n_xattr n !! "trusted.overlay.whiteout" = None) as Hno.
  { intros k Hk Hf. destruct (n_xattr n !! "trusted.overlay.whiteout") as [v|] eqn:E; [|done].
    destruct (eo_whiteout n He v E) as [H _]. rewrite Hk in H. congruence. }
  destruct (n_kind n) as [content| |t|r|r| |] eqn:Ek.
  - destruct (n_xattr n !! "trusted.overlay.whiteout") as [v|] eqn:E.
    + destruct (eo_whiteout n He v E) as [_ Hl]. rewrite bool_decide_eq_true_2 by (by eexists).
      destruct (N.leb_spec (N.of_nat (String.length v)) 1); [done|lia].
    + by rewrite bool_decide_eq_false_2 by (by intros [? ?]).
  - by rewrite (Hno KDir).
  - by rewrite (Hno (KLink t)).
  - unfold st_rdev. rewrite Ek. destruct (N.eqb_spec r 0) as [->|Hr].
    + done.
    + destruct (eo_chr n He r Ek) as [?|Hl]; [done|].
      apply andb_false_iff. rewrite !N.eqb_neq.
      destruct (decide (N.land r 255 = 0%N)) as [E1|?]; [|by right]. left. intros E2.
      apply Hl, land_split. done.
  - by rewrite (Hno (KBlk r)).
  - by rewrite (Hno KFifo).
  - by rewrite (Hno KSock).
Qed.

Lemma is_renamed_dom f p n : wf_tree f → f !! p = Some n → utf8_path p → entry_ok n →
  is_renamed f (details_of p n) = Ok None.
Proof.
  intros Hwf Hn Hu He. unfold is_renamed. cbn [d_path details_of].
  rewrite cstring_utf8, (lgetxattr_dom f p n) by done. unfold XREDIRECT. by rewrite (eo_redirect n He).
Qed.

Lemma elem_of_walkdir f p q : wf_tree f → is_dir_at f p →
  q ∈ walkdir f p ↔ under p q = true ∧ is_Some (f !! q).
Proof.
  intros Hwf (n & Hn & Hk). unfold walkdir.
  rewrite lookup_f_dirpath; [|by eapply wf_dirpath|intros m Hm; assert (m = n) as -> by congruence; by rewrite Hk].
  rewrite Hn, Hk. simpl. rewrite elem_of_list_omap. split.
  - intros (k & Hk' & E). apply elem_of_keys in Hk'. destruct (path_strip p k) as [s|] eqn:Es; [|done].
    injection E as <-. apply path_strip_spec in Es as ->. split; [apply under_app|done].
  - intros [Hu Hs]. exists q. split; [by apply elem_of_keys|].
    apply under_spec in Hu as [s ->]. by rewrite path_strip_app.
Qed.

Lemma NoDup_walkdir f p : wf_tree f → is_dir_at f p → NoDup (walkdir f p).
Proof.
  intros Hwf (n & Hn & Hk). unfold walkdir.
  rewrite lookup_f_dirpath; [|by eapply wf_dirpath|intros m Hm; assert (m = n) as -> by congruence; by rewrite Hk].
  rewrite Hn, Hk. simpl. generalize (NoDup_keys f). generalize (keys f) as l.
  induction l as [|k l IHl]; simpl; [constructor|].
  intros HN. apply NoDup_cons in HN as [HN1 HN2].
  destruct (path_strip p k) as [s|] eqn:Es; auto.
  apply path_strip_spec in Es as ->. apply NoDup_cons. split; [|auto].
  rewrite elem_of_list_omap. intros (k' & Hk' & E).
  destruct (path_strip p k') as [s'|] eqn:Es'; try done. injection E as E.
  apply app_inv_head in E as ->. apply path_strip_spec in Es' as ->. done.
Qed.

(** ** Sources *)
Lemma source_loop_plain f uroot lroot rsub acc : wf_tree f →
  is_Some (f !! uroot) →
  (∀ a b, rev rsub = a ++ b → ∃ n, f !! (uroot ++ a) = Some n ∧ (a ≠ [] → utf8_path (uroot ++ a) ∧ entry_ok n)) →
  source_loop f uroot lroot rsub acc = Ok (if_exists f (lroot ++ rev rsub ++ acc)).
Proof.
  intros Hwf [nr Hr]. revert acc. induction rsub as [|c rs IH]; intros acc Hup.
  - simpl. rewrite app_nil_r. by rewrite (from_path_dom f uroot nr).
  - destruct (Hup (rev (c :: rs)) [] ltac:(by rewrite app_nil_r)) as (n & Hn & He).
    cbn [source_loop]. rewrite (from_path_dom f _ n) by done.
    rewrite (is_renamed_dom f _ n); [|done|done|apply He; simpl; by destruct (rev rs)|apply He; simpl; by destruct (rev rs)].
    rewrite IH.
    + simpl. by rewrite <-app_assoc.
    + intros a b E. apply (Hup a (b ++ [c])). simpl. rewrite E. by rewrite app_assoc.
Qed.

Section sandbox.
  Context (f : fs) (ub : path) (ms : list path) (Hok : sandbox_ok f ub ms).

  Let Hst : storage_ok f ub ms := sb_storage _ _ _ Hok.
  Let Hwf : wf_tree f := so_wf _ _ _ Hst.

  Lemma mount_comps m : m ∈ ms → Forall comp_ok m.
  Proof. intros Hm. destruct (so_mount _ _ _ Hst m Hm) as [(d & Hd & _) _]. by eapply wf_comps. Qed.

  Lemma decode_mount m : m ∈ ms → decode_base (b32_encode (path_str m)) = Some m.
  Proof.
    intros Hm. unfold decode_base. rewrite b32_roundtrip.
    destruct (so_mount _ _ _ Hst m Hm) as [_ ->]. by rewrite comps_path_str by (by apply mount_comps).
  Qed.

  Lemma enc_inj m m' : m ∈ ms → m' ∈ ms → b32_encode (path_str m) = b32_encode (path_str m') → m = m'.
  Proof.
    intros Hm Hm' E. assert (Some m = Some m') as [=]; [|done].
    rewrite <-(decode_mount m), <-(decode_mount m') by done. by rewrite E.
  Qed.

  Lemma upper_dir_inj m m' s s' : m ∈ ms → m' ∈ ms →
    upper_dir ub m ++ s = upper_dir ub m' ++ s' → m = m' ∧ s = s'.
  Proof.
    intros Hm Hm'. unfold upper_dir.
    assert (∀ a b : string, (ub ++ [a]) ++ s = (ub ++ [b]) ++ s' → a = b ∧ s = s') as H.
    { intros a b E. rewrite <-!app_assoc in E. apply app_inv_head in E. simpl in E. by injection E. }
    intros E. apply H in E as [E ->]. split; [|done]. by apply enc_inj.
  Qed.

  (** Strict prefixes of a staged entry are staged directories (or the upper root). *)
  Lemma staged_prefix m s c r n : staged_at f ub m (s ++ c :: r) n →
    ∃ d, f !! (upper_dir ub m ++ s) = Some d ∧ n_kind d = KDir.
  Proof.
    intros [_ Hn]. rewrite app_assoc in Hn. by apply (wf_prefix f _ _ _ Hwf Hn).
  Qed.

  Lemma staged_prefix_at m s c r n : staged_at f ub m (s ++ c :: r) n → s ≠ [] →
    ∃ d, staged_at f ub m s d ∧ n_kind d = KDir.
  Proof. intros H Hs. destruct (staged_prefix _ _ _ _ _ H) as (d & Hd & Hk). by exists d. Qed.

  (** No host symlink above a staged path. *)
  Lemma host_nolink m s n : m ∈ ms → staged_at f ub m s n → nolink f (m ++ s).
  Proof.
    intros Hm Hs a c r E.
    assert (Forall comp_ok (m ++ s)) as Hc.
    { apply Forall_app. split; [by apply mount_comps|]. destruct Hs as [_ Hn].
      apply (wf_comps f _ _ Hwf) in Hn. by apply Forall_app in Hn as [_ ?]. }
    split.
    - rewrite E in Hc. apply Forall_app in Hc as [_ Hc]. by apply Forall_cons in Hc as [? _].
    - intros k Hk.
      assert (under a (m ++ s) = true) as Hu by (rewrite E; apply under_app).
      destruct (under_comparable a m (m ++ s) Hu (under_app _ _)) as [H|H].
      + apply under_spec in H as [t Ht]. destruct (so_mount _ _ _ Hst m Hm) as [(d & Hd & Hkd) _].
        rewrite Ht in Hd. destruct t as [|x t].
        * rewrite app_nil_r in Hd. assert (k = d) as -> by congruence. by rewrite Hkd.
        * destruct (wf_prefix f a (x :: t) d Hwf Hd ltac:(done)) as (d' & Hd' & Hkd').
          assert (k = d') as -> by congruence. by rewrite Hkd'.
      + apply under_spec in H as [t ->]. rewrite <-app_assoc in E. apply app_inv_head in E.
        destruct t as [|x t].
        * rewrite app_nil_r in Hk. destruct (so_mount _ _ _ Hst m Hm) as [(d & Hd & Hkd) _].
          assert (k = d) as -> by congruence. by rewrite Hkd.
        * rewrite E in Hs. destruct (staged_prefix_at _ _ _ _ _ Hs ltac:(done)) as (d & Hd & Hkd).
          destruct (is_klink (n_kind k)) eqn:El; [|done].
          destruct (n_kind k) eqn:Ekk; try done.
          by destruct (ho_dir_link _ _ _ _ _ _ (sb_host _ _ _ Hok _ _ _ Hm Hd) target k Hkd Hk).
  Qed.

  Lemma utf8_staged (m s : path) (n : node) : f !! (upper_dir ub m ++ s) = Some n → utf8_path (upper_dir ub m ++ s).
  Proof using Hst.
    intros Hn. apply (so_utf8 _ _ _ Hst _ n Hn). unfold upper_dir. rewrite <-app_assoc. apply under_app.
  Qed.

  Lemma text_staged (m s : path) (n : node) : m ∈ ms → staged_at f ub m s n → utf8_valid (path_str (m ++ s)) = true.
  Proof using Hst.
    intros Hm [_ Hn]. destruct (so_mount _ _ _ Hst m Hm) as [_ Hu]. apply utf8_path_str_app; [done|].
    apply utf8_staged in Hn. by apply Forall_app in Hn as [_ Hn].
  Qed.

  (** The source of an entry is the host path, if it exists (following symlinks). *)
  Lemma staged_source m s n : m ∈ ms → staged_at f ub m s n →
    get_source f (upper_dir ub m) m s = Ok (if_exists f (m ++ s)).
  Proof.
    intros Hm Hs. unfold get_source.
    rewrite source_loop_plain.
    - by rewrite rev_involutive, app_nil_r.
    - done.
    - destruct Hs as [_ Hn]. by eapply wf_is_Some_prefix.
    - rewrite rev_involutive. intros a b ->. destruct b as [|c r].
      + rewrite app_nil_r in Hs. destruct Hs as [Hne Hn]. exists n. split; [done|]. intros _.
        split; [by apply (utf8_staged m a n)|]. eapply (sb_entry _ _ _ Hok); [done|]. split; [done|exact Hn].
      + destruct (staged_prefix _ _ _ _ _ Hs) as (d & Hd & Hk). exists d. split; [done|].
        intros Hne. split; [by apply (utf8_staged m a d)|]. eapply (sb_entry _ _ _ Hok); [done|]. split; [done|exact Hd].
  Qed.

  Lemma exists_host m s n : m ∈ ms → staged_at f ub m s n → exists_ f (m ++ s) = true →
    is_Some (f !! (m ++ s)).
  Proof.
    intros Hm Hs He. destruct (f !! (m ++ s)) as [k|] eqn:Ek; [by eexists|]. exfalso.
    unfold exists_, stat in He.
    destruct (lookup_f_cases f (m ++ s) Hwf (host_nolink m s n Hm Hs) ltac:(intros k Hk; congruence))
      as [[er Hl]|[Hl _]]; rewrite Hl in He; simpl in He; [done|].
    by rewrite Ek in He.
  Qed.

  Lemma exists_nonlink m s k : f !! (m ++ s) = Some k → is_klink (n_kind k) = false →
    exists_ f (m ++ s) = true ∧ is_dir f (m ++ s) = is_kdir (n_kind k).
  Proof.
    intros Hk Hl. unfold exists_, is_dir. rewrite (stat_dom f _ k) by done. done.
  Qed.

  (** The source details the program records. *)
  Definition source_details (p : path) : option details :=
    if exists_ f p then match f !! p with Some k => Some (details_of p k) | None => None end else None.

  Definition entry_for (m s : path) (n : node) : upper_entry :=
    UE (m ++ s) (upper_dir ub m ++ s) (details_of (upper_dir ub m ++ s) n)
      (if_exists f (m ++ s)) (source_details (m ++ s)).

  Lemma entry_of_staged e inc m s n c : m ∈ ms → staged_at f ub m s n →
    upper_entry_of e f ub inc (upper_dir ub m ++ s) c =
      (let '(ig, c') := if inc then (Ok false, c)
                        else is_ignored (e_glob e) f ub (b32_encode (path_str m)) m s c in
       (match ig with
        | Err er => Err er
        | Ok true => Ok None
        | Ok false => Ok (Some (entry_for m s n))
        end, c')).
  Proof.
    intros Hm Hs. pose proof Hs as [Hne Hn].
    unfold upper_entry_of. unfold upper_dir at 1. rewrite <-app_assoc, path_strip_app. simpl.
    rewrite decode_mount by done. destruct s as [|x s]; [done|].
    destruct (if inc then (Ok false, c) else _) as [[ig|er] c']; [|done].
    destruct ig; [done|]. f_equal.
    change (ub ++ [b32_encode (path_str m)]) with (upper_dir ub m).
    rewrite (staged_source m (x :: s) n) by done. simpl.
    rewrite (from_path_dom f _ n) by done.
    unfold entry_for, if_exists, source_details.
    destruct (exists_ f (m ++ x :: s)) eqn:Ee; simpl; [|done].
    destruct (exists_host m (x :: s) n Hm Hs Ee) as [k Hk].
    rewrite (from_path_dom f _ k) by done. simpl. by rewrite Hk.
  Qed.

  (** Every item of the walk of the upper tree is the upper base, an upper root or an entry. *)
  Lemma walk_item p : p ∈ walkdir f ub →
    p = ub ∨ (∃ m, m ∈ ms ∧ p = upper_dir ub m) ∨
    ∃ m s n, m ∈ ms ∧ staged_at f ub m s n ∧ p = upper_dir ub m ++ s.
  Proof.
    intros Hp. apply elem_of_walkdir in Hp as [Hu [n Hn]]; [|done|apply (so_ub _ _ _ Hst)].
    apply under_spec in Hu as [t ->]. destruct t as [|c s].
    { left. by rewrite app_nil_r. }
    right. change (c :: s) with ([c] ++ s) in Hn. rewrite app_assoc in Hn.
    destruct (wf_is_Some_prefix f _ _ _ Hwf Hn) as [d Hd].
    destruct (so_child _ _ _ Hst c d Hd) as (m & Hm & ->).
    destruct s as [|x s].
    - left. by exists m.
    - right. exists m, (x :: s), n. split; [done|]. split; [by split|].
      unfold upper_dir. by rewrite <-app_assoc.
  Qed.

  Lemma skip_base e inc c : upper_entry_of e f ub inc ub c = (Ok None, c).
  Proof.
    unfold upper_entry_of. rewrite <-(app_nil_r ub) at 2. by rewrite path_strip_app.
  Qed.
  Lemma skip_root e inc m c : m ∈ ms → upper_entry_of e f ub inc (upper_dir ub m) c = (Ok None, c).
  Proof.
    intros Hm. unfold upper_entry_of. unfold upper_dir. rewrite path_strip_app.
    by rewrite decode_mount.
  Qed.

  Lemma entries_sound_loop e inc ps c es : (∀ p, p ∈ ps → p ∈ walkdir f ub) →
    upper_entries_loop e f ub inc ps c = Ok es →
    ∀ x, x ∈ es → ∃ m s n, m ∈ ms ∧ staged_at f ub m s n ∧ (upper_dir ub m ++ s) ∈ ps ∧ x = entry_for m s n.
  Proof.
    revert c es. induction ps as [|p ps IH]; intros c es Hps; simpl.
    { intros [= <-] x Hx. by apply elem_of_nil in Hx. }
    destruct (upper_entry_of e f ub inc p c) as [r c'] eqn:Er. simpl.
    destruct r as [oe|]; [|done]. simpl.
    destruct (upper_entries_loop e f ub inc ps c') as [es'|] eqn:Ees; [|done]. simpl.
    intros [= <-] x Hx.
    assert (x ∈ es' → ∃ m s n, m ∈ ms ∧ staged_at f ub m s n ∧ (upper_dir ub m ++ s) ∈ p :: ps ∧ x = entry_for m s n) as Hrest.
    { intros Hx'. destruct (IH c' es' ltac:(set_solver) Ees x Hx') as (m & s & n & H1 & H2 & H3 & H4).
      exists m, s, n. set_solver. }
    destruct oe as [y|]; [|by apply Hrest].
    apply elem_of_cons in Hx as [->|Hx]; [|by apply Hrest].
    destruct (walk_item p ltac:(set_solver)) as [->|[(m & Hm & ->)|(m & s & n & Hm & Hs & ->)]].
    - by rewrite skip_base in Er.
    - by rewrite skip_root in Er.
    - rewrite (entry_of_staged e inc m s n) in Er by done.
      destruct (if inc then _ else _) as [[[]|] ?]; try done. injection Er as <- <-.
      exists m, s, n. set_solver.
  Qed.

  Lemma entries_sound e inc es : env_ok e → upper_entries e f ub inc = Ok es →
    ∀ x, x ∈ es → ∃ m s n, m ∈ ms ∧ staged_at f ub m s n ∧ x = entry_for m s n.
  Proof.
    intros He H x Hx. unfold upper_entries in H.
    destruct (entries_sound_loop e inc (e_ord e (walkdir f ub)) ∅ es ltac:(intros p; by rewrite (He _)) H x Hx)
      as (m & s & n & H1 & H2 & _ & H3). eauto 6.
  Qed.

  (** With ignore rules off, nothing is missed. *)
  Lemma entries_complete_loop e ps c : (∀ p, p ∈ ps → p ∈ walkdir f ub) →
    ∃ es, upper_entries_loop e f ub true ps c = Ok es ∧
      (∀ m s n, m ∈ ms → staged_at f ub m s n → (upper_dir ub m ++ s) ∈ ps → entry_for m s n ∈ es) ∧
      (NoDup ps → NoDup (ue_upper <$> es)).
  Proof.
    revert c. induction ps as [|p ps IH]; intros c Hps; simpl.
    { exists []. split; [done|]. split; [intros; set_solver|]. intros _. constructor. }
    destruct (walk_item p ltac:(set_solver)) as [->|[(m & Hm & ->)|(m & s & n & Hm & Hs & ->)]].
    - rewrite skip_base. simpl. destruct (IH c ltac:(set_solver)) as (es & -> & H & HN). exists es.
      split; [done|]. split; [|intros HN'; apply HN; by apply NoDup_cons in HN' as [_ ?]].
      intros m' s' n' Hm' Hs' Hin. apply elem_of_cons in Hin as [E|Hin]; [|by apply H].
      exfalso. apply (f_equal length) in E. destruct Hs' as [Hne _]. unfold upper_dir in E.
      rewrite !app_length in E. simpl in E. lia.
    - rewrite skip_root by done. simpl. destruct (IH c ltac:(set_solver)) as (es & -> & H & HN). exists es.
      split; [done|]. split; [|intros HN'; apply HN; by apply NoDup_cons in HN' as [_ ?]].
      intros m' s' n' Hm' Hs' Hin. apply elem_of_cons in Hin as [E|Hin]; [|by apply H].
      exfalso. apply (f_equal length) in E. destruct Hs' as [Hne _]. unfold upper_dir in E.
      rewrite !app_length in E. simpl in E. destruct s'; [done|]. simpl in E. lia.
    - rewrite (entry_of_staged e true m s n) by done. simpl.
      destruct (IH c ltac:(set_solver)) as (es & Ees & H & HN). rewrite Ees. exists (entry_for m s n :: es).
      split; [done|]. split.
      + intros m' s' n' Hm' Hs' Hin. apply elem_of_cons in Hin as [E|Hin]; [|right; by apply H].
        apply upper_dir_inj in E as [-> ->]; [|done|done].
        destruct Hs as [_ Hs], Hs' as [_ Hs']. assert (n' = n) as -> by congruence. left.
      + intros HN'. apply NoDup_cons in HN' as [HN1 HN2]. rewrite fmap_cons. apply NoDup_cons.
        split; [|by apply HN]. rewrite elem_of_list_fmap. intros (x & Ex & Hx).
        destruct (entries_sound_loop e true ps c es ltac:(set_solver) Ees x Hx)
          as (m' & s' & n' & _ & _ & Hin & ->). simpl in Ex. congruence.
  Qed.

  Lemma entries_complete e : env_ok e →
    ∃ es, upper_entries e f ub true = Ok es ∧ NoDup (ue_upper <$> es) ∧
      ∀ x, x ∈ es ↔ ∃ m s n, m ∈ ms ∧ staged_at f ub m s n ∧ x = entry_for m s n.
  Proof.
    intros He. destruct (entries_complete_loop e (e_ord e (walkdir f ub)) ∅) as (es & Hes & H & HN).
    { intros p. by rewrite (He _). }
    exists es. split; [done|]. split.
    { apply HN. rewrite (He _). apply NoDup_walkdir; [done|apply (so_ub _ _ _ Hst)]. }
    intros x. split; [by apply (entries_sound e true)|].
    intros (m & s & n & Hm & Hs & ->). apply H; [done|done|]. rewrite (He _).
    apply elem_of_walkdir; [done|apply (so_ub _ _ _ Hst)|]. split.
    - unfold upper_dir. rewrite <-app_assoc. apply under_app.
    - destruct Hs as [_ Hs]. by eexists.
  Qed.
End sandbox.
