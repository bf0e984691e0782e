(** * Properties of [sandbox reject] (C08-C10).

    [reject e ub inc pats f] is the model of the command run on filesystem [f] with the sandbox's
    upper tree at [ub]. *)
From Verif Require Export Props_Accept Reject.

(** ** What the staged paths of listed changes are, for any storage whatsoever *)
Lemma entries_loop_from (e : env) (f : fs) (ub : path) (inc : bool) (ps : list path) (c : cache) (es : list upper_entry) :
  upper_entries_loop e f ub inc ps c = Ok es →
  ∀ x, x ∈ es → ∃ p c0 c1, p ∈ ps ∧ upper_entry_of e f ub inc p c0 = (Ok (Some x), c1).
Proof.
  revert c es. induction ps as [|p ps IH]; intros c es H x Hx; simpl in H.
  { injection H as <-. by apply elem_of_nil in Hx. }
  destruct (upper_entry_of e f ub inc p c) as [r c'] eqn:E. destruct r as [oe|]; simpl in H; [|done].
  destruct (upper_entries_loop e f ub inc ps c') as [es'|] eqn:E'; simpl in H; [|done]. injection H as <-.
  assert (x ∈ es' ∨ oe = Some x) as [Hin| ->].
  { destruct oe as [y|]; [|by left]. apply elem_of_cons in Hx as [->|Hx]; [by right|by left]. }
  - destruct (IH c' es' E' x Hin) as (q & c0 & c1 & Hq & Hx'). exists q, c0, c1. split; [by right|done].
  - exists p, c, c'. split; [left|done].
Qed.

Lemma upper_entry_of_inv (e : env) (f : fs) (ub : path) (inc : bool) (p : path) (c : cache) (x : upper_entry) (c' : cache) (n : node) :
  wf_tree f → f !! p = Some n → upper_entry_of e f ub inc p c = (Ok (Some x), c') →
  (∃ a b r, p = ub ++ a :: b :: r) ∧ ue_upper x = p ∧ ue_details x = details_of p n.
Proof.
  intros Hwf Hn. unfold upper_entry_of. destruct (path_strip ub p) as [[|enc sub]|] eqn:Es; [done| |done].
  destruct (decode_base enc) as [base|]; [|done]. destruct sub as [|s0 sub]; [done|].
  destruct (if inc then _ else _) as [[[|]|] c0]; [done| |done]. intros H. injection H as H _.
  apply path_strip_spec in Es. rewrite <-app_assoc in H. simpl in H. rewrite <-Es in H.
  destruct (get_source f (ub ++ [enc]) base (s0 :: sub)) as [src|]; simpl in H; [|done].
  destruct (match src with Some sp => from_path f sp | None => Ok None end) as [sd|]; simpl in H; [|done].
  rewrite (from_path_dom f p n Hwf Hn) in H. simpl in H. injection H as <-. cbn.
  split; [by exists enc, s0, sub|]. done.
Qed.

Lemma rmap_elem {A B : Type} (g : A → res B) (l : list A) (l' : list B) :
  rmap g l = Ok l' → ∀ y, y ∈ l' → ∃ x, x ∈ l ∧ g x = Ok y.
Proof.
  revert l'. induction l as [|x l IH]; intros l' H y Hy; simpl in H.
  { injection H as <-. by apply elem_of_nil in Hy. }
  destruct (g x) as [b|] eqn:Eg; [|done]. simpl in H. destruct (rmap g l) as [bs|]; [|done]. simpl in H.
  injection H as <-. apply elem_of_cons in Hy as [->|Hy]; [exists x; split; [left|done]|].
  destruct (IH bs eq_refl y Hy) as (x' & Hx' & E). exists x'. split; [by right|done].
Qed.

(** Every listed change is staged at an existing path inside a mount's upper directory. *)
Lemma staged_in_upper (e : env) (f : fs) (ub : path) (inc : bool) (l : list change) (c : change) (d : details) :
  wf_tree f → is_dir_at f ub → env_ok e → changes e f ub inc = Ok l → c ∈ l → c_staged c = Some d →
  ∃ n, f !! d_path d = Some n ∧ d = details_of (d_path d) n ∧ ∃ a b r, d_path d = ub ++ a :: b :: r.
Proof.
  intros Hwf Hub He Hl Hc Hd. unfold changes in Hl.
  destruct (upper_entries e f ub inc) as [es|] eqn:Ees; [|done]. simpl in Hl.
  destruct (renamed_paths f es) as [rp|]; [|done]. simpl in Hl.
  destruct (rmap (entry_changes e f rp) es) as [css|] eqn:Ecs; [|done]. simpl in Hl. injection Hl as <-.
  apply elem_of_list_join in Hc as (cs & Hc & Hcs).
  destruct (rmap_elem _ _ _ Ecs cs Hcs) as (x & Hx & Ex).
  destruct (entries_loop_from _ _ _ _ _ _ _ Ees x Hx) as (p & c0 & c1 & Hp & Eu).
  rewrite (He _) in Hp. apply elem_of_walkdir in Hp as [_ [n Hn]]; [|done|done].
  destruct (upper_entry_of_inv _ _ _ _ _ _ _ _ n Hwf Hn Eu) as (Hs & Hup & Hud).
  assert (d = details_of p n) as ->.
  { unfold entry_changes in Ex. rewrite Hup, (from_path_dom f p n Hwf Hn) in Ex. simpl in Ex.
    destruct (remove_changes e f rp x) as [rs|] eqn:Er; [|done]. simpl in Ex.
    destruct (set_changes f x (details_of p n)) as [ss|] eqn:Ess; [|done]. simpl in Ex. injection Ex as <-.
    apply elem_of_app in Hc as [Hc|Hc].
    - unfold remove_changes in Er. destruct (_ || _ || _); [|injection Er as <-; by apply elem_of_nil in Hc].
      destruct (ue_source x) as [sp|]; [|injection Er as <-; by apply elem_of_nil in Hc].
      destruct (decide (sp ∈ rp)); [injection Er as <-; by apply elem_of_nil in Hc|].
      destruct (is_dir f sp).
      + unfold remove_walk in Er. destruct (rmap_elem _ _ _ Er c Hc) as (q & _ & Eq).
        destruct (from_path f q) as [[dq|]|]; simpl in Eq; [|done|done]. injection Eq as <-.
        simpl in Hd. destruct (decide (q = sp)); [|done]. congruence.
      + injection Er as <-. apply elem_of_list_singleton in Hc as ->. simpl in Hd. congruence.
    - unfold set_changes in Ess. destruct (is_removed f (ue_details x)); [injection Ess as <-; by apply elem_of_nil in Hc|].
      destruct (is_renamed f (details_of p n)) as [[r|]|]; simpl in Ess; [| |done].
      + destruct (ue_source_details x); injection Ess as <-; apply elem_of_list_singleton in Hc as ->; simpl in Hd; congruence.
      + destruct (negb _ && _ && _); injection Ess as <-; apply elem_of_list_singleton in Hc as ->; simpl in Hd; congruence. }
  exists n. split; [done|]. split; [done|]. exact Hs.
Qed.

(** [q] is the staged file of a change in [cs]. *)
Definition is_staged_of (cs : list change) (q : path) : Prop := ∃ c d, c ∈ cs ∧ c_staged c = Some d ∧ q = d_path d.

Definition rejecting (f : fs) (cs : list change) (s : fs) : Prop :=
  wf_tree s ∧ ∀ q, s !! q = f !! q ∨ (s !! q = None ∧ is_staged_of cs q).

Lemma rejecting_nolink (f : fs) (cs : list change) (s : fs) (q : path) : rejecting f cs s → nolink f q → nolink s q.
Proof.
  intros [_ H] Hnl a c r E. destruct (Hnl a c r E) as [Hc Hl]. split; [done|].
  intros n Hn. destruct (H a) as [Ha|[Ha _]]; [|congruence]. apply Hl. congruence.
Qed.

Lemma reject_loop_triple (f : fs) (all cs : list change) (lastp : option path) (gone : path → Prop) : wf_tree f →
  (∀ c, c ∈ cs → c ∈ all) →
  (∀ c d, c ∈ all → c_staged c = Some d → is_Some (f !! d_path d)) →
  (∀ p, lastp = Some p → gone p) →
  triple (rejecting f all) (λ s, rejecting f all s ∧ ∀ p, gone p → s !! p = None) (reject_loop lastp cs)
    (λ _ s, rejecting f all s ∧ ∀ p, gone p ∨ is_staged_of cs p → s !! p = None).
Proof.
  intros Hwf. revert lastp gone. induction cs as [|c cs IH]; intros lastp gone Hin Hst Hlast; simpl.
  { apply triple_ret; [by intros s []|]. intros s [H1 H2]. split; [done|]. intros p [Hp|(c & d & Hc & _)]; [by apply H2|].
    by apply elem_of_nil in Hc. }
  assert (∀ c0, c0 ∈ cs → c0 ∈ all) as Hin' by (intros c0 H; apply Hin; by right).
  assert (∀ p, is_staged_of (c :: cs) p → (∃ d, c_staged c = Some d ∧ p = d_path d) ∨ is_staged_of cs p) as Hsplit.
  { intros p (c0 & d & Hc & Hd & ->). apply elem_of_cons in Hc as [->|Hc]; [left; by exists d|right; by exists c0, d]. }
  destruct (c_staged c) as [st|] eqn:Est.
  2: { eapply triple_weaken; [apply (IH lastp gone); done|done|]. intros _ s [H1 H2]. split; [done|].
       intros p [Hp|Hp]; [apply H2; by left|]. apply Hsplit in Hp as [(d & ? & _)|Hp]; [done|]. apply H2. by right. }
  destruct (decide (lastp = Some (d_path st))) as [El|Hne].
  { eapply triple_weaken; [apply (IH lastp gone); done|done|]. intros _ s [H1 H2]. split; [done|].
    intros p [Hp|Hp]; [apply H2; by left|]. apply Hsplit in Hp as [(d & [= <-] & ->)|Hp]; [|apply H2; by right].
    apply H2. left. by apply Hlast. }
  pose proof (Hst c st (Hin c ltac:(left)) Est) as [n Hn].
  set (gone' := λ p, gone p ∨ p = d_path st).
  eapply triple_bind with (Q := λ _ s, rejecting f all s ∧ ∀ p, gone' p → s !! p = None).
  - intros s [Hr Hg].
    assert (nolink s (d_path st)) as Hnl.
    { eapply rejecting_nolink; [done|]. by eapply dirpath_nolink, wf_dirpath. }
    assert (∀ o : out unit, o = emit (delete (d_path st) s) → wf_tree (delete (d_path st) s) →
       Forall (rejecting f all) (o_trace o) ∧ rejecting f all (o_fs o) ∧
       (∀ a : unit, o_res o = Ok a → rejecting f all (o_fs o) ∧ ∀ p, gone' p → o_fs o !! p = None)) as Hdel.
    { intros o -> Hw. assert (rejecting f all (delete (d_path st) s)) as Hr'.
      { split; [done|]. intros q. destruct (decide (q = d_path st)) as [->|Hq].
        - right. rewrite lookup_delete. split; [done|]. exists c, st. split; [apply Hin; left|done].
        - rewrite lookup_delete_ne by done. apply Hr. }
      split; [by apply Forall_singleton|]. split; [done|]. intros _ _. split; [done|]. intros p [Hp| ->].
      - simpl. destruct (decide (p = d_path st)) as [->|Hq]; [apply lookup_delete|].
        rewrite lookup_delete_ne by done. by apply Hg.
      - apply lookup_delete. }
    assert (∀ er, ∀ o : out unit, o = fail_ s er → Forall (rejecting f all) (o_trace o) ∧ rejecting f all (o_fs o) ∧
       (∀ a : unit, o_res o = Ok a → rejecting f all (o_fs o) ∧ ∀ p, gone' p → o_fs o !! p = None)) as Hfail.
    { intros er o ->. split; [constructor|]. split; [done|]. done. }
    destruct (d_is_dir st).
    + destruct (rmdir_cases s (d_path st) (proj1 Hr) Hnl) as [[er Er]|(n' & _ & _ & _ & _ & _ & Er & Hw)];
        [by apply (Hfail er)|by apply Hdel].
    + destruct (unlink_cases s (d_path st) (proj1 Hr) Hnl) as [[er Er]|(n' & _ & _ & _ & _ & Er & Hw)];
        [by apply (Hfail er)|by apply Hdel].
  - intros _. eapply triple_weaken; [apply (IH (Some (d_path st)) gone')|done|].
    + done.
    + done.
    + intros p [= <-]. by right.
    + intros _ s [H1 H2]. split; [done|]. intros p [Hp|Hp]; [apply H2; left; by left|].
      apply Hsplit in Hp as [(d & [= <-] & ->)|Hp]; [apply H2; left; by right|]. apply H2. by right.
Qed.

(** Everything [reject] does, for any storage. *)
Lemma reject_run (e : env) (f : fs) (ub : path) (inc : bool) (pats : list string) (sel : list change) :
  wf_tree f → is_dir_at f ub → env_ok e → selected e f ub inc pats = Ok sel →
  let o := reject e ub inc pats f in
  Forall (rejecting f sel) (states o) ∧
  (is_ok (o_res o) = true → o_res o = Ok (length sel) ∧ ∀ q, is_staged_of sel q → o_fs o !! q = None).
Proof.
  intros Hwf Hub He Hsel o. unfold selected in Hsel. destruct (changes e f ub inc) as [all|] eqn:Eall; [|done].
  simpl in Hsel. injection Hsel as <-. set (sel := matching (e_glob e) (e_cwd e) pats all) in *.
  set (cs := sort_by by_staged_descending sel).
  assert (∀ c, c ∈ cs ↔ c ∈ sel) as Hcs by (intros c; unfold cs; by rewrite elem_of_sort_by).
  pose proof (reject_loop_triple f sel cs None (λ _, False) Hwf ltac:(intros c; by rewrite Hcs)) as Ht.
  assert (∀ c d, c ∈ sel → c_staged c = Some d → is_Some (f !! d_path d)) as Hst.
  { intros c d Hc Hd. unfold sel, matching in Hc. apply elem_of_list_filter in Hc as [_ Hc].
    destruct (staged_in_upper e f ub inc all c d Hwf Hub He Eall Hc Hd) as (n & Hn & _). by eexists. }
  assert (rejecting f sel f) as Hf0 by (split; [done|]; intros q; by left).
  specialize (Ht Hst ltac:(done) f ltac:(split; [done|done])) as (H1 & H2 & H3).
  assert (o = Out (o_trace (reject_loop None cs f)) (o_fs (reject_loop None cs f))
    (match o_res (reject_loop None cs f) with Ok _ => Ok (length sel) | Err er => Err er end)) as Eo.
  { unfold o, reject. rewrite (bind_get_ok _ _ f all) by done. fold sel. fold cs.
    assert (length cs = length sel) as -> by (apply Permutation_length, sort_by_perm).
    destruct (o_res (reject_loop None cs f)) as [[]|er] eqn:Er.
    - rewrite (bind_ok _ _ _ tt) by done. simpl. by rewrite app_nil_r.
    - by rewrite (bind_err _ _ _ er) by done. }
  rewrite Eo. unfold states. cbn [o_trace o_fs o_res]. split.
  - apply Forall_app. split; [done|]. by apply Forall_singleton.
  - destruct (o_res (reject_loop None cs f)) as [[]|er]; [|done]. intros _. split; [done|].
    destruct (H3 tt eq_refl) as [_ H]. intros q (c & d & Hc & Hd & ->). apply H. right. exists c, d.
    by rewrite Hcs.
Qed.

Lemma reject_fails (e : env) (f : fs) (ub : path) (inc : bool) (pats : list string) (er : err) :
  selected e f ub inc pats = Err er → reject e ub inc pats f = Out [] f (Err er).
Proof.
  unfold selected, reject. destruct (changes e f ub inc) as [all|] eqn:E; simpl; [done|]. intros [= <-].
  unfold bind_ at 1, get_. cbn [o_res o_fs o_trace]. by rewrite E.
Qed.

(** ** C08: reject never modifies the host *)
(** In every state the command goes through, and whatever its outcome, every path outside the
    upper directories is as before; no assumption on what the upper tree holds. *)
Theorem C08_reject_never_touches_host : ∀ e f ub inc pats s q,
  wf_tree f → is_dir_at f ub → env_ok e →
  s ∈ states (reject e ub inc pats f) → (∀ a b r, q ≠ ub ++ a :: b :: r) → s !! q = f !! q.
Proof.
  intros e f ub inc pats s q Hwf Hub He Hs Hq. destruct (selected e f ub inc pats) as [sel|er] eqn:Esel.
  - destruct (reject_run e f ub inc pats sel Hwf Hub He Esel) as [H _]. rewrite Forall_forall in H.
    destruct (H s Hs) as [_ Hr]. destruct (Hr q) as [|[_ (c & d & Hc & Hd & ->)]]; [done|]. exfalso.
    unfold selected in Esel. destruct (changes e f ub inc) as [all|] eqn:Eall; [|done]. simpl in Esel.
    injection Esel as <-. unfold matching in Hc. apply elem_of_list_filter in Hc as [_ Hc].
    destruct (staged_in_upper e f ub inc all c d Hwf Hub He Eall Hc Hd) as (n & _ & _ & a & b & r & E).
    by apply (Hq a b r).
  - rewrite (reject_fails _ _ _ _ _ _ Esel) in Hs. unfold states in Hs. simpl in Hs.
    by apply elem_of_list_singleton in Hs as ->.
Qed.
Print Assumptions C08_reject_never_touches_host.
Lemma demo_wf : wf_tree demo_fs.
Proof. apply wf_treeb_spec. vm_compute. reflexivity. Qed.
Lemma demo_ub_dir : is_dir_at demo_fs demo_ub.
Proof. exists dir0. vm_compute. done. Qed.
Example C08_nonvacuous : wf_tree demo_fs ∧ is_dir_at demo_fs demo_ub ∧ env_ok demo_env ∧
  length (states (reject demo_env demo_ub true ["/"] demo_fs)) = 10.
Proof. split; [exact demo_wf|]. split; [exact demo_ub_dir|]. split; [exact demo_env_ok|]. vm_compute. reflexivity. Qed.

(** ** C09: reject removes exactly the selected changes *)
(** Only staged files of the matching changes are ever removed; nothing is ever modified or
    created; and on success all of them are gone and their number is what is printed. *)
Theorem C09_reject_exactly_selected : ∀ e f ub inc pats sel,
  wf_tree f → is_dir_at f ub → env_ok e → selected e f ub inc pats = Ok sel →
  let o := reject e ub inc pats f in
  (∀ s q, s ∈ states o → s !! q = f !! q ∨
     (s !! q = None ∧ ∃ c d, c ∈ sel ∧ c_staged c = Some d ∧ d_path d = q)) ∧
  (is_ok (o_res o) = true → o_res o = Ok (length sel) ∧
     ∀ q, o_fs o !! q =
       if decide (Exists (λ c, d_path <$> c_staged c = Some q) sel) then None else f !! q).
Proof.
  intros e f ub inc pats sel Hwf Hub He Hsel o.
  destruct (reject_run e f ub inc pats sel Hwf Hub He Hsel) as [H1 H2]. fold o in H1, H2. rewrite Forall_forall in H1. split.
  - intros s q Hs. destruct (proj2 (H1 s Hs) q) as [|[E (c & d & Hc & Hd & ->)]]; [by left|right].
    split; [done|]. by exists c, d.
  - intros Hok. destruct (H2 Hok) as [E Hgone]. split; [done|]. intros q. case_decide as Hd.
    + apply Exists_exists in Hd as (c & Hc & Hq). destruct (c_staged c) as [d|] eqn:Ed; [|done]. injection Hq as <-.
      apply Hgone. by exists c, d.
    + assert (o_fs o ∈ states o) as Hs by (unfold states; apply elem_of_app; right; left).
      destruct (proj2 (H1 _ Hs) q) as [|[_ (c & d & Hc & Hcd & ->)]]; [done|]. destruct Hd.
      apply Exists_exists. exists c. by rewrite Hcd.
Qed.
Print Assumptions C09_reject_exactly_selected.
Example C09_nonvacuous : let o := reject demo_env demo_ub true ["/etc/conf"] demo_fs in
  o_res o = Ok 1 ∧ o_fs o !! (demo_ub ++ ["F4"; "etc"; "conf"]) = None ∧
  o_fs o !! (demo_ub ++ ["F4"; "etc"; "gone"]) = Some wh.
Proof. vm_compute. done. Qed.

(** Selecting only part of a deleted directory reports a rejection but leaves the deletion in
    place: the change has no staged file of its own. *)
Definition C09_gone_full : Prop := ∀ e f ub inc pats sel,
  wf_tree f → is_dir_at f ub → env_ok e → selected e f ub inc pats = Ok sel →
  let o := reject e ub inc pats f in is_ok (o_res o) = true →
  ∀ sel', selected e (o_fs o) ub inc pats = Ok sel' → sel' = [].
Theorem C09_gone_refuted : ¬ C09_gone_full.
Proof.
  intros H.
  assert (∃ sel, selected demo_env demo_fs demo_ub true ["/home/d/x"] = Ok sel) as [sel Hsel]
    by (eexists; vm_compute; reflexivity).
  pose proof (H demo_env demo_fs demo_ub true ["/home/d/x"] sel demo_wf demo_ub_dir demo_env_ok Hsel) as H1. clear H Hsel.
  cbv zeta in H1.
  assert (is_ok (o_res (reject demo_env demo_ub true ["/home/d/x"] demo_fs)) = true) as Hk by (vm_compute; reflexivity).
  specialize (H1 Hk). clear Hk.
  assert (∃ c, selected demo_env (o_fs (reject demo_env demo_ub true ["/home/d/x"] demo_fs)) demo_ub true ["/home/d/x"] = Ok [c]) as [c Hc]
    by (eexists; vm_compute; reflexivity).
  specialize (H1 [c] Hc). clear Hc. discriminate.
Qed.
Print Assumptions C09_gone_refuted.

(** ** C10: rejecting everything restores the original view *)
(** For sandboxes without renamed directories: *)
Definition C10_full : Prop := ∀ e f ub ms dev pats,
  overlay_state f ub ms → one_device f ub dev → env_ok e → selects_all e f ub pats →
  let o := reject e ub true pats f in is_ok (o_res o) = true →
  ∀ m s, owns ms m (m ++ s) → s ≠ [] → under ub (m ++ s) = false →
    sandbox_view (o_fs o) ub m s = f !! (m ++ s).

(** False: the deletion of a dangling symlink is not listed, so it cannot be rejected. *)
Definition dangling_fs : fs := list_to_map
  [ ([], dir0); (["l"], mk (KLink "nowhere") 511 0); (["sbx"], dir0); (["sbx"; "up"], dir0);
    (["sbx"; "up"; "F4"], dir0); (["sbx"; "up"; "F4"; "l"], wh) ].
Theorem C10_refuted : ¬ C10_full.
Proof.
  intros H.
  assert (overlay_state dangling_fs demo_ub [[]]) as H1 by (apply overlay_stateb_spec; vm_compute; reflexivity).
  assert (one_device dangling_fs demo_ub 1) as H2 by (apply one_deviceb_spec; vm_compute; reflexivity).
  assert (selects_all demo_env dangling_fs demo_ub ["/"]) as H3 by (by apply selects_all_root).
  pose proof (H demo_env dangling_fs demo_ub [[]] 1%N ["/"] H1 H2 demo_env_ok H3) as H4. clear H H1 H2 H3. cbv zeta in H4.
  assert (is_ok (o_res (reject demo_env demo_ub true ["/"] dangling_fs)) = true) as Hk by (vm_compute; reflexivity).
  specialize (H4 Hk [] ["l"] (owns_root _) ltac:(discriminate)). clear Hk.
  assert (under demo_ub ([] ++ ["l"]) = false) as Hu by (vm_compute; reflexivity).
  specialize (H4 Hu). vm_compute in H4. discriminate.
Qed.
Print Assumptions C10_refuted.

(** A renamed directory: rejecting everything removes the new name but not the whiteout of the
    old one, so the directory has vanished from the sandbox (and accepting now deletes it). *)
Definition rename_fs : fs := list_to_map
  [ ([], dir0); (["d"], dir0); (["d"; "x"], file_ "precious"); (["sbx"], dir0); (["sbx"; "up"], dir0);
    (["sbx"; "up"; "F4"], dir0); (["sbx"; "up"; "F4"; "d"], wh);
    (["sbx"; "up"; "F4"; "n"], Node KDir 493 0 0 1 {[ "trusted.overlay.redirect" := "/d" ]}) ].
Definition C10_renamed_full : Prop := ∀ e f ub ms dev pats,
  storage_ok f ub ms → one_device f ub dev → env_ok e → selects_all e f ub pats →
  (∀ p n, f !! p = Some n → n_kind n = KFile (match n_kind n with KFile c => c | _ => "" end) ∨ n_kind n = KDir ∨ n_kind n = KChr 0) →
  let o := reject e ub true pats f in is_ok (o_res o) = true →
  ∀ m s, owns ms m (m ++ s) → s ≠ [] → under ub (m ++ s) = false →
    sandbox_view (o_fs o) ub m s = f !! (m ++ s).
Theorem C10_renamed_refuted : ¬ C10_renamed_full.
Proof.
  intros H.
  assert (storage_ok rename_fs demo_ub [[]]) as H1 by (apply storage_okb_spec; vm_compute; reflexivity).
  assert (one_device rename_fs demo_ub 1) as H2 by (apply one_deviceb_spec; vm_compute; reflexivity).
  assert (selects_all demo_env rename_fs demo_ub ["/"]) as H3 by (by apply selects_all_root).
  pose proof (H demo_env rename_fs demo_ub [[]] 1%N ["/"] H1 H2 demo_env_ok H3) as H4. clear H H1 H2 H3. cbv zeta in H4.
  assert (∀ p n, rename_fs !! p = Some n →
     n_kind n = KFile (match n_kind n with KFile c => c | _ => "" end) ∨ n_kind n = KDir ∨ n_kind n = KChr 0) as Hkinds.
  { assert (on_fs rename_fs (λ _ n, match n_kind n with KFile _ => true | KDir => true | KChr r => N.eqb r 0 | _ => false end) = true) as Hf
      by (vm_compute; reflexivity).
    intros p n Hn. pose proof (on_fs_spec _ _ Hf p n Hn) as Hk. cbv beta in Hk. clear -Hk.
    destruct (n_kind n) as [c| |t|r|r| |]; [by left|by right; left|done| |done|done|done].
    right. right. apply N.eqb_eq in Hk as ->. done. }
  specialize (H4 Hkinds). clear Hkinds.
  assert (is_ok (o_res (reject demo_env demo_ub true ["/"] rename_fs)) = true) as Hk by (vm_compute; reflexivity).
  specialize (H4 Hk [] ["d"; "x"] (owns_root _) ltac:(discriminate)). clear Hk.
  assert (under demo_ub ([] ++ ["d"; "x"]) = false) as Hu by (vm_compute; reflexivity).
  specialize (H4 Hu). vm_compute in H4. discriminate.
Qed.
Print Assumptions C10_renamed_refuted.
(** After the reject, accepting deletes the directory on the host. *)
Example C10_reject_then_accept_deletes :
  let f1 := o_fs (reject demo_env demo_ub true ["/"] rename_fs) in
  f1 !! ["d"; "x"] = Some (file_ "precious") ∧
  o_res (accept demo_env demo_ub true ["/"] f1) ≠ Err ENOENT ∧
  o_fs (accept demo_env demo_ub true ["/"] f1) !! ["d"; "x"] = None.
Proof. vm_compute. split; [done|]. split; [discriminate|done]. Qed.

(** Whiteouts that hide nothing any more (the host object disappeared). *)
Definition no_orphans (f : fs) (ub : path) (ms : list path) : Prop :=
  ∀ m s n, m ∈ ms → staged_at f ub m s n → whiteout n = true → is_Some (f !! (m ++ s)).

Lemma staged_listed (f : fs) (ub : path) (ms : list path) (m s : path) (n : node) : sandbox_ok f ub ms →
  m ∈ ms → staged_at f ub m s n → (whiteout n = true → is_Some (f !! (m ++ s))) →
  ∃ c, lists f ub ms c ∧ c_staged c = Some (details_of (upper_dir ub m ++ s) n).
Proof.
  intros Hok Hm Hs Hw. destruct (whiteout n) eqn:Ew.
  - destruct (Hw eq_refl) as [k Hk].
    exists (Change (m ++ s) ORemove (Some (details_of (m ++ s) k)) (Some (details_of (upper_dir ub m ++ s) n)) None).
    split; [|done]. exists m, s, n. split; [done|]. split; [done|]. left. split; [exists k; split; [done|]; by right; left|].
    exists (m ++ s), k. split; [apply under_refl|]. split; [done|]. by rewrite decide_True.
  - destruct (supported n) eqn:Esup.
    + eexists. split; [exists m, s, n; split; [done|]; split; [done|]; right; left; by split|done].
    + eexists. split; [exists m, s, n; split; [done|]; split; [done|]; right; right; by split|done].
Qed.

Section reject_all.
  Context (f : fs) (ub : path) (ms : list path) (Hok : sandbox_ok f ub ms).
  Context (e : env) (He : env_ok e) (dev : N) (Hdev : one_device f ub dev) (Horph : no_orphans f ub ms).
  Context (cs : list change) (Hcs : ∀ c, c ∈ cs ↔ lists f ub ms c).
  Context (Hsorted : StronglySorted (cmp_le by_staged_descending) cs).
  Let Hst : storage_ok f ub ms := sb_storage _ _ _ Hok.
  Let Hwf : wf_tree f := so_wf _ _ _ Hst.

  Lemma staged_is c d : c ∈ cs → c_staged c = Some d → ∃ m s n, m ∈ ms ∧ staged_at f ub m s n ∧ d = details_of (upper_dir ub m ++ s) n.
  Proof.
    rewrite Hcs. intros (m & s & n & Hm & Hs & Hl) Hd. exists m, s, n. split; [done|]. split; [done|].
    destruct Hl as [(_ & q & k & _ & _ & ->)|[(_ & _ & ->)|(_ & _ & ->)]]; simpl in Hd; [|by injection Hd as <-..].
    destruct (decide (q = m ++ s)); [|done]. by injection Hd as <-.
  Qed.

  Lemma reject_loop_succeeds pre post lastp s : cs = pre ++ post →
    wf_tree s → (∀ q, is_staged_of pre q → s !! q = None) → (∀ q, ¬ is_staged_of pre q → s !! q = f !! q) →
    (∀ c d, c ∈ pre → c_staged c = Some d → ∃ p, lastp = Some p ∧ path_cmp (d_path d) p ≠ Lt) →
    (∀ p, lastp = Some p → is_staged_of pre p ∧ ∀ c d, c ∈ post → c_staged c = Some d → path_cmp p (d_path d) ≠ Lt) →
    is_ok (o_res (reject_loop lastp post s)) = true.
  Proof.
    revert pre lastp s. induction post as [|c post IH]; intros pre lastp s E Hws Hgone Hkeep Hlast1 Hlast2; [done|].
    cbn [reject_loop].
    assert (∀ q, is_staged_of (pre ++ [c]) q ↔ is_staged_of pre q ∨ d_path <$> c_staged c = Some q) as Hsn.
    { intros q. split.
      - intros (c0 & d & Hc & Hd & ->). apply elem_of_app in Hc as [Hc|Hc]; [left; by exists c0, d|].
        apply elem_of_list_singleton in Hc as ->. right. by rewrite Hd.
      - intros [(c0 & d & Hc & Hd & ->)|Hc]; [exists c0, d; split; [set_solver|done]|].
        destruct (c_staged c) as [d|] eqn:Ed; [|done]. injection Hc as <-. exists c, d. split; [set_solver|done]. }
    assert (cs = (pre ++ [c]) ++ post) as E' by (by rewrite <-app_assoc).
    assert (c ∈ cs) as Hc by (rewrite E; set_solver).
    destruct (c_staged c) as [st|] eqn:Est.
    2: { apply (IH (pre ++ [c])); [done|done| | | |].
         - intros q Hq. apply Hsn in Hq as [Hq|Hq]; [by apply Hgone|done].
         - intros q Hq. apply Hkeep. intros Hq'. apply Hq, Hsn. by left.
         - intros c0 d Hc0 Hd. apply elem_of_app in Hc0 as [Hc0|Hc0]; [by apply (Hlast1 c0)|].
           apply elem_of_list_singleton in Hc0 as ->. congruence.
         - intros p Hp. destruct (Hlast2 p Hp) as [H1 H2]. split; [apply Hsn; by left|].
           intros c0 d Hc0. apply H2. by right. }
    assert (∀ c0 d, c0 ∈ post → c_staged c0 = Some d → path_cmp (d_path st) (d_path d) ≠ Lt) as Hafter.
    { intros c0 d Hc0 Hd Hlt. rewrite E in Hsorted. apply StronglySorted_app_inv_r in Hsorted.
      apply StronglySorted_inv in Hsorted as [_ Hall]. rewrite Forall_forall in Hall. specialize (Hall c0 Hc0).
      unfold cmp_le, by_staged_descending in Hall. rewrite Est, Hd in Hall.
      destruct path_cmp_total as [_ S _]. rewrite S, Hlt in Hall. done. }
    destruct (decide (lastp = Some (d_path st))) as [El|Hne].
    { apply (IH (pre ++ [c])); [done|done| | | |].
      - intros q Hq. apply Hsn in Hq as [Hq|Hq]; [by apply Hgone|]. injection Hq as <-. apply Hgone.
        by destruct (Hlast2 _ El).
      - intros q Hq. apply Hkeep. intros Hq'. apply Hq, Hsn. by left.
      - intros c0 d Hc0 Hd. apply elem_of_app in Hc0 as [Hc0|Hc0]; [by apply (Hlast1 c0)|].
        apply elem_of_list_singleton in Hc0 as ->. exists (d_path st). split; [done|].
        assert (d = st) as -> by congruence. destruct path_cmp_preorder as [R _ _]. by rewrite R.
      - intros p Hp. assert (p = d_path st) as -> by congruence. split; [apply Hsn; by right|]. done. }
    destruct (staged_is c st Hc Est) as (m & s0 & n & Hm & Hs0 & ->). set (p := upper_dir ub m ++ s0) in *.
    cbn [d_path details_of] in *. fold p in Hsn, Hafter, Hne.
    assert (¬ is_staged_of pre p) as Hnp.
    { intros (c0 & d & Hc0 & Hd & Ep). destruct (Hlast1 c0 d Hc0 Hd) as (p0 & Hp0 & Hcmp).
      destruct (Hlast2 p0 Hp0) as [_ H2]. specialize (H2 c _ ltac:(left) Est). cbn [d_path details_of] in H2. fold p in H2.
      rewrite <-Ep in Hcmp. apply Hne. rewrite Hp0. f_equal. destruct path_cmp_total as [Ee S _].
      destruct (path_cmp p p0) eqn:Ec; [by symmetry; apply Ee|done|].
      rewrite S, Ec in H2. done. }
    assert (s !! p = Some n) as Hsp by (rewrite Hkeep by done; apply Hs0).
    assert (dirpath s p) as Hdp by (by eapply wf_dirpath).
    rewrite d_is_dir_of.
    assert (sys_res : (if is_kdir (n_kind n) then sys_rmdir p else sys_unlink p) s = emit (delete p s)).
    { destruct (is_kdir (n_kind n)) eqn:Ek.
      - apply is_kdir_true in Ek. apply (rmdir_ok s p n); [done| |done|done| |].
        + unfold p, upper_dir. by destruct ub.
        + destruct Hs0 as [Hne0 Hf0]. fold p in Hf0. destruct (exists_last Hne0) as (s1 & x & ->).
          assert (p = (upper_dir ub m ++ s1) ++ [x]) as Ep by (unfold p; by rewrite app_assoc). rewrite Ep, removelast_snoc.
          rewrite Ep in Hsp. destruct (wf_parent s Hws _ _ _ Hsp) as (k & Hk & _). unfold dev_of. rewrite Hk. simpl. f_equal.
          assert (f !! (upper_dir ub m ++ s1) = Some k) as Hfk.
          { rewrite <-Hkeep; [done|]. intros Hx. rewrite (Hgone _ Hx) in Hk. done. }
          assert (∀ r, under ub (upper_dir ub m ++ r) = true) as Hund
            by (intros r; unfold upper_dir; rewrite <-app_assoc; apply under_app).
          transitivity dev; [exact (Hdev _ _ (Hund s1) Hfk)|symmetry]. exact (Hdev _ _ (Hund (s1 ++ [x])) Hf0).
        + apply below_nil. intros [|x r] Hr; [done|]. destruct (s !! (p ++ x :: r)) as [k|] eqn:Esq; [exfalso|done].
          assert (¬ is_staged_of pre (p ++ x :: r)) as Hnq by (intros Hx; rewrite (Hgone _ Hx) in Esq; done).
          rewrite Hkeep in Esq by done.
          assert (staged_at f ub m (s0 ++ x :: r) k) as Hsq.
          { split; [by destruct s0|]. unfold p in Esq. by rewrite <-app_assoc in Esq. }
          destruct (staged_listed f ub ms m (s0 ++ x :: r) k Hok Hm Hsq (Horph m _ k Hm Hsq)) as (c' & Hc' & Hd').
          apply Hcs in Hc'.
          apply Hnq. exists c', (details_of (upper_dir ub m ++ s0 ++ x :: r) k). cbn [d_path details_of].
          split; [|split; [done|unfold p; by rewrite <-app_assoc]].
          apply (sorted_before by_staged_descending cs pre post c c'); [done|done|done| |].
          * intros ->. rewrite Est in Hd'. apply (f_equal (λ o, d_path <$> o)) in Hd'. simpl in Hd'. injection Hd' as Hd'.
            unfold p in Hd'. apply app_inv_head in Hd'. rewrite <-(app_nil_r s0) in Hd' at 1. by apply app_inv_head in Hd'.
          * unfold by_staged_descending. rewrite Est, Hd'. cbn [d_path details_of].
            assert (upper_dir ub m ++ s0 ++ x :: r = p ++ x :: r) as -> by (unfold p; by rewrite app_assoc).
            apply path_cmp_above.
      - apply (unlink_ok s p n); [done|done|]. intros E0. by rewrite E0 in Ek. }
    rewrite (bind_ok _ _ _ tt); [|by rewrite sys_res]. cbn [o_res]. rewrite sys_res. cbn [emit o_fs].
    apply (IH (pre ++ [c])); [done| | | | |].
    - destruct (is_kdir (n_kind n)) eqn:Ek.
      + destruct (rmdir_cases s p Hws (dirpath_nolink _ _ Hdp)) as [[er Er]|(n' & _ & _ & _ & _ & _ & _ & Hw)]; [|done].
        rewrite sys_res in Er. done.
      + destruct (unlink_cases s p Hws (dirpath_nolink _ _ Hdp)) as [[er Er]|(n' & _ & _ & _ & _ & _ & Hw)]; [|done].
        rewrite sys_res in Er. done.
    - intros q Hq. apply Hsn in Hq as [Hq|Hq].
      + destruct (decide (q = p)) as [->|]; [apply lookup_delete|]. rewrite lookup_delete_ne by done. by apply Hgone.
      + injection Hq as <-. apply lookup_delete.
    - intros q Hq. rewrite lookup_delete_ne; [|intros <-; apply Hq, Hsn; by right]. apply Hkeep. intros Hq'. apply Hq, Hsn. by left.
    - intros c0 d Hc0 Hd. exists p. split; [done|]. intros Hlt. apply elem_of_app in Hc0 as [Hc0|Hc0].
      + destruct (Hlast1 c0 d Hc0 Hd) as (p0 & Hp0 & Hcmp). destruct (Hlast2 p0 Hp0) as [_ H2].
        specialize (H2 c _ ltac:(left) Est). cbn [d_path details_of] in H2. fold p in H2.
        destruct path_cmp_preorder as [_ S T]. pose proof (T (d_path d) p p0) as HT.
        assert (path_cmp p p0 ≠ Gt) as Hn1 by (intros Hg; rewrite S, Hg in H2; done).
        destruct (path_cmp (d_path d) p0) eqn:Ec; [|done|].
        * destruct path_cmp_total as [Ee _ _]. apply Ee in Ec. rewrite Ec in Hlt. by destruct (H2 Hlt).
        * apply HT; [by rewrite Hlt|done|done].
      + apply elem_of_list_singleton in Hc0 as ->. rewrite Est in Hd. injection Hd as <-. cbn [d_path details_of] in Hlt. fold p in Hlt.
        destruct path_cmp_preorder as [R _ _]. by rewrite R in Hlt.
    - intros p0 [= <-]. split; [apply Hsn; by right|]. done.
  Qed.
End reject_all.

(** Rejecting everything succeeds, leaves nothing staged, and gives back the host's view. *)
Theorem C10_reject_all_restores_partial : ∀ e f ub ms dev pats,
  sandbox_ok f ub ms → no_orphans f ub ms → one_device f ub dev → env_ok e → selects_all e f ub pats →
  let o := reject e ub true pats f in
  is_ok (o_res o) = true ∧
  (∀ m s n, m ∈ ms → ¬ staged_at (o_fs o) ub m s n) ∧
  (∀ m s, owns ms m (m ++ s) → s ≠ [] → under ub (m ++ s) = false →
     sandbox_view (o_fs o) ub m s = f !! (m ++ s)).
Proof.
  intros e f ub ms dev pats Hok Horph Hdev He Hsel o.
  destruct (changes_complete f ub ms Hok e He) as (all & Eall & Hall).
  pose proof (Hsel all Eall) as Em.
  assert (selected e f ub true pats = Ok all) as Es by (unfold selected; rewrite Eall; simpl; by rewrite Em).
  pose proof (so_wf _ _ _ (sb_storage _ _ _ Hok)) as Hwf.
  destruct (reject_run e f ub true pats all Hwf (so_ub _ _ _ (sb_storage _ _ _ Hok)) He Es) as [Hrun Hgone]. fold o in Hrun, Hgone.
  assert (is_ok (o_res o) = true) as Hoks.
  { unfold o, reject. rewrite (bind_get_ok _ _ f all) by done. rewrite Em.
    pose proof (reject_loop_succeeds f ub ms Hok e He dev Hdev Horph (sort_by by_staged_descending all)
      ltac:(intros c; by rewrite elem_of_sort_by) ltac:(apply sort_by_sorted, by_staged_descending_preorder)
      [] (sort_by by_staged_descending all) None f eq_refl Hwf) as H.
    destruct (o_res (reject_loop None (sort_by by_staged_descending all) f)) as [[]|er] eqn:Er.
    - by rewrite (bind_ok _ _ _ tt).
    - exfalso. cut (is_ok (@Err unit er) = true); [done|]. apply H.
      + intros q (c & d & Hc & _). by apply elem_of_nil in Hc.
      + done.
      + intros c d Hc. by apply elem_of_nil in Hc.
      + done. }
  split; [done|]. destruct (Hgone Hoks) as [_ Hg].
  rewrite Forall_forall in Hrun. destruct (Hrun (o_fs o)) as [Hwo Hkeep].
  { unfold states. apply elem_of_app. right. left. }
  assert (∀ m s n, m ∈ ms → ¬ staged_at (o_fs o) ub m s n) as Hnone.
  { intros m s n Hm [Hne Hs]. destruct (Hkeep (upper_dir ub m ++ s)) as [E|[E _]]; [|congruence].
    rewrite Hs in E. symmetry in E.
    destruct (staged_listed f ub ms m s n Hok Hm (conj Hne E) (Horph m s n Hm (conj Hne E))) as (c & Hc & Hd).
    apply Hall in Hc. rewrite (Hg (upper_dir ub m ++ s)) in Hs; [done|]. by eexists _, _. }
  split; [done|]. intros m s (Hm & _) Hne Hub. unfold sandbox_view.
  destruct (overlay_both (o_fs o) (upper_dir ub m) m s Hwo Hne) as (_ & _ & H3).
  rewrite H3.
  - destruct (Hkeep (m ++ s)) as [|[_ (c & d & Hc & Hd & Ep)]]; [done|].
    destruct (staged_in_upper e f ub true all c d Hwf (so_ub _ _ _ (sb_storage _ _ _ Hok)) He Eall Hc Hd) as (n & _ & _ & a & b & r & E).
    exfalso. rewrite Ep, E, under_app in Hub. done.
  - destruct (o_fs o !! (upper_dir ub m ++ s)) as [n|] eqn:E; [|done]. by destruct (Hnone m s n Hm).
  - intros s1 c r n -> Hs1 Hn. by destruct (Hnone m s1 n Hm).
Qed.
Print Assumptions C10_reject_all_restores_partial.

Definition no_orphansb (f : fs) (ub : path) (ms : list path) : bool :=
  on_staged f ub ms (λ m s n, negb (whiteout n) || bool_decide (is_Some (f !! (m ++ s)))).
Lemma no_orphansb_spec f ub ms : no_orphansb f ub ms = true → no_orphans f ub ms.
Proof.
  intros H m s n Hm Hs Hw. pose proof (on_staged_spec _ _ _ _ H m s n Hm Hs) as H'. cbv beta in H'.
  rewrite Hw in H'. by apply bool_decide_eq_true in H'.
Qed.
Example C10_nonvacuous : let o := reject demo_env demo_ub true ["/"] demo_fs in
  is_ok (o_res o) = true ∧
  (∀ m s, owns [[]] m (m ++ s) → s ≠ [] → under demo_ub (m ++ s) = false →
     sandbox_view (o_fs o) demo_ub m s = demo_fs !! (m ++ s)).
Proof.
  assert (no_orphans demo_fs demo_ub [[]]) as Ho by (apply no_orphansb_spec; vm_compute; reflexivity).
  destruct (C10_reject_all_restores_partial demo_env demo_fs demo_ub [[]] 1 ["/"] demo_ok Ho demo_device demo_env_ok demo_selects)
    as (H1 & _ & H2). split; [exact H1|exact H2].
Qed.
