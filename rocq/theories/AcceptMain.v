(** * The whole accept run on a rename-free selection. *)
From Verif Require Export AcceptFacts.

(** Every state the machine can be found in while the program runs, and the final one. *)
Definition states {A : Type} (o : out A) : list fs := o_trace o ++ [o_fs o].

(** Staged paths of the changes that are cleaned up after success. *)
Definition staged_paths (cs : list change) : list path :=
  mjoin (clean_removed <$> cs) ++ mjoin (clean_set <$> cs).

Lemma elem_of_staged_paths cs p : p ∈ staged_paths cs ↔
  ∃ c st, c ∈ cs ∧ (c_op c = ORemove ∨ is_set c) ∧ c_staged c = Some st ∧ p = d_path st.
Proof.
  unfold staged_paths. rewrite elem_of_app, !elem_of_list_join. split.
  - intros [(l & Hp & Hl)|(l & Hp & Hl)]; apply elem_of_list_fmap in Hl as (c & -> & Hc).
    + unfold clean_removed in Hp. destruct (c_op c) eqn:E; try by apply elem_of_nil in Hp.
      destruct (c_staged c) as [st|] eqn:Est; [|by apply elem_of_nil in Hp].
      apply elem_of_list_singleton in Hp as ->. exists c, st. auto.
    + unfold clean_set in Hp. destruct (c_op c) as [t| | |] eqn:E; try by apply elem_of_nil in Hp.
      destruct (c_staged c) as [st|] eqn:Est; [|by apply elem_of_nil in Hp].
      apply elem_of_list_singleton in Hp as ->. exists c, st. split; [done|]. split; [right; by exists t|done].
  - intros (c & st & Hc & [Ho|[t Ho]] & Hst & ->); [left|right]; exists [d_path st];
      (split; [by apply elem_of_list_singleton|]); apply elem_of_list_fmap; exists c; split; auto.
    + unfold clean_removed. by rewrite Ho, Hst.
    + unfold clean_set. by rewrite Ho, Hst.
Qed.

(** The host part of the job is complete in [s]. *)
Definition complete (f0 : fs) (cs : list change) (s : fs) : Prop :=
  wf_tree s ∧
  (∀ c, c ∈ cs → is_set c → ∃ st nst n, c_staged c = Some st ∧ f0 !! d_path st = Some nst ∧
      s !! c_dest c = Some n ∧ same_entry nst n ∧
      (removed cs (c_dest c) → attrs_kept None nst n) ∧
      (¬ removed cs (c_dest c) → attrs_kept (f0 !! c_dest c) nst n)) ∧
  (∀ q, (∀ c, c ∈ cs → is_set c → q ≠ c_dest c) →
      (removed cs q → s !! q = None) ∧ (¬ removed cs q → s !! q = f0 !! q)).

Lemma after_removes_perm e f0 cs l l' s : l ≡ₚ l' → after_removes e f0 cs l s → after_removes e f0 cs l' s.
Proof.
  intros HP [Hi H]. split; [done|]. intros q. destruct (H q) as [[H1 H2]|[H1 (c & H2 & H3)]].
  - left. split; [done|]. intros c. rewrite <-HP. apply H2.
  - right. split; [done|]. exists c. by rewrite <-HP.
Qed.

Lemma complete_intro e f0 cs l1 l3 s1 s2 : l1 ≡ₚ cs → l3 ≡ₚ cs →
  after_removes e f0 cs l1 s1 → after_sets e f0 cs s1 l3 s2 → complete f0 cs s2.
Proof.
  intros HP1 HP3 [_ Hr] (Hi & Hs & Hf). split; [apply Hi|]. split.
  - intros c Hc Hsc. destruct (Hs c ltac:(by rewrite HP3) Hsc) as (st & nst & n & H1 & H2 & H3 & H4 & H5).
    exists st, nst, n. split; [done|]. split; [done|]. split; [done|]. split; [done|].
    destruct (Hr (c_dest c)) as [[E H6]|[E (c' & H6 & H7)]]; rewrite E in H5.
    + split; [|done]. intros (c' & Hc' & Hrc). exfalso. apply (H6 c'); [by rewrite HP1|done].
    + split; [done|]. intros Hnr. exfalso. apply Hnr. exists c'. split; [by rewrite <-HP1|done].
  - intros q Hq.
    assert (s2 !! q = s1 !! q) as ->.
    { apply Hf. intros c Hc. apply Hq. by rewrite <-HP3. }
    destruct (Hr q) as [[H1 H2]|[H1 (c & H2 & H3)]].
    + split; [|done]. intros (c & Hc & Hrc). exfalso. apply (H2 c); [by rewrite HP1|done].
    + split; [done|]. intros Hnr. exfalso. apply Hnr. exists c. split; [by rewrite <-HP1|done].
Qed.

(** ** The real pass *)
Definition run_inv (e : env) (f0 : fs) (cs : list change) (ps : list path) (s : fs) : Prop :=
  inv e f0 cs s ∨ ∃ s2, inv e f0 cs s2 ∧ complete f0 cs s2 ∧ cleaning s2 ps s.

Lemma staged_paths_perm cs l1 l3 : l1 ≡ₚ cs → l3 ≡ₚ cs →
  ∀ p, p ∈ mjoin (clean_removed <$> l1) ++ mjoin (clean_set <$> l3) ↔ p ∈ staged_paths cs.
Proof. intros HP1 HP3 p. unfold staged_paths. by rewrite !elem_of_app, HP1, HP3. Qed.

Lemma cleaning_ext f1 ps ps' s : (∀ p, p ∈ ps ↔ p ∈ ps') → cleaning f1 ps s → cleaning f1 ps' s.
Proof.
  intros HP [Hw H]. split; [done|]. intros q. destruct (H q) as [->|[-> (p & Hp & Hu)]]; [by left|].
  right. split; [done|]. exists p. by rewrite <-HP.
Qed.

Lemma triple_inv_weaken {A : Type} (I I' P : fs → Prop) (m : M A) (Q : A → fs → Prop) :
  (∀ s, I s → I' s) → triple I P m Q → triple I' P m Q.
Proof.
  intros HI H s Hs. destruct (H s Hs) as (H1 & H2 & H3). split; [|split; [by apply HI|done]].
  eapply Forall_impl; [exact H1|done].
Qed.

Lemma real_pass e ub f0 cs cs' : plan e ub f0 cs → env_ok e → cs' ≡ₚ cs →
  triple (run_inv e f0 cs (staged_paths cs)) (λ s, s = f0) (accept_pass e 2 false cs')
    (λ r s, (∃ s2, inv e f0 cs s2 ∧ complete f0 cs s2 ∧
                   cleaned s2 (staged_paths cs) (staged_paths cs) s) ∧
            r.1 = sum_by count_removed (sort_by by_reverse_source cs') + 
                  sum_by count_set (sort_by by_destination (sort_by by_reverse_source (sort_by by_reverse_source cs')))).
Proof.
  intros Hplan He HP. unfold accept_pass.
  assert (∀ c, c ∈ sort_by by_reverse_source (sort_by by_reverse_source cs') → c_op c ≠ ORename) as Hnr.
  { intros c Hc. apply (pl_norename _ _ _ _ Hplan). rewrite <-HP. by rewrite !elem_of_sort_by in Hc. }
  rewrite assign_tmp_id by done.
  set (l1 := sort_by by_reverse_source cs') in *.
  assert (l1 ≡ₚ cs) as HP1 by (unfold l1; by rewrite sort_by_perm).
  set (l2 := sort_by by_reverse_source l1) in *.
  assert (l2 ≡ₚ cs) as HP2 by (unfold l2; by rewrite sort_by_perm).
  set (l3 := sort_by by_destination l2) in *.
  assert (l3 ≡ₚ cs) as HP3 by (unfold l3; by rewrite sort_by_perm).
  eapply triple_bind.
  { eapply triple_inv_weaken; [|by eapply removes_pass]. intros s Hs. by left. }
  intros r1. apply triple_pure. intros ->.
  eapply triple_bind with (Q := λ _, after_removes e f0 cs l1).
  { intros s Hs. rewrite premove_skip by done. simpl. split; [constructor|].
    split; [left; apply Hs|]. done. }
  intros []. intros s1 Hs1.
  enough (triple (run_inv e f0 cs (staged_paths cs)) (λ s, s = s1)
   (r3 <-- accum (imap (λ i c, (i, c)) l3) (accept_set e 2 false);;
   (clean_up e ((sum_by count_removed l1, mjoin (clean_removed <$> l1)).2 ++ r3.2);;;
    ret_ ((sum_by count_removed l1, mjoin (clean_removed <$> l1)).1 + r3.1, l3)))
   (λ r s, (∃ s2 : fs, inv e f0 cs s2 ∧ complete f0 cs s2 ∧ cleaned s2 (staged_paths cs) (staged_paths cs) s) ∧
      r.1 = sum_by count_removed l1 + sum_by count_set l3)) as H by (by apply H).
  eapply triple_bind.
  { eapply triple_inv_weaken; [|eapply (sets_pass e ub f0 cs Hplan s1 l3); try done].
    - intros s Hs. by left.
    - apply Hs1.
    - intros q. destruct Hs1 as [_ Hs1]. destruct (Hs1 q) as [[-> _]|[-> _]]; auto. }
  intros r3. apply triple_pure. intros ->. cbn [fst snd].
  intros s2 Hs2.
  assert (complete f0 cs s2) as Hc by exact (complete_intro e f0 cs l1 l3 s1 s2 HP1 HP3 Hs1 Hs2).
  pose proof (proj1 Hs2) as Hi2.
  pose proof (staged_paths_perm cs l1 l3 HP1 HP3) as Hps.
  set (ps := mjoin (clean_removed <$> l1) ++ mjoin (clean_set <$> l3)) in *.
  enough (triple (run_inv e f0 cs (staged_paths cs)) (λ s, s = s2)
   (clean_up e ps;;; ret_ (sum_by count_removed l1 + sum_by count_set l3, l3))
   (λ r s, (∃ s2 : fs, inv e f0 cs s2 ∧ complete f0 cs s2 ∧ cleaned s2 (staged_paths cs) (staged_paths cs) s) ∧
      r.1 = sum_by count_removed l1 + sum_by count_set l3)) as H by (by apply H).
  eapply triple_bind.
  { eapply (triple_inv_weaken (cleaning s2 ps)).
    - intros s Hs. right. exists s2. split; [done|]. split; [done|]. by eapply cleaning_ext.
    - apply clean_pass; [done|apply Hi2|]. intros p Hp. apply Hps, elem_of_staged_paths in Hp.
      destruct Hp as (c & st & Hc' & _ & Hst & ->).
      destruct (staged_kept e ub f0 cs Hplan s2 c st Hi2 Hc' Hst) as (n & Hn & _). by exists n. }
  intros []. apply triple_ret.
  - intros s [Hs _]. right. exists s2. split; [done|]. split; [done|]. by eapply cleaning_ext.
  - intros s [Hs Hg]. split; [|done]. exists s2. split; [done|]. split; [done|]. split.
    + by eapply cleaning_ext.
    + intros p Hp. apply Hg. by apply Hps.
Qed.

(** ** accept *)
Definition selected (e : env) (f : fs) (ub : path) (inc : bool) (pats : list string) : res (list change) :=
  rbind (changes e f ub inc) (λ all, Ok (matching (e_glob e) (e_cwd e) pats all)).

Lemma accept_no_changes e f ub inc pats er :
  changes e f ub inc = Err er → accept e ub inc pats f = Out [] f (Err er).
Proof. intros E. unfold accept, bind_ at 1, get_. cbn [o_res o_fs o_trace]. by rewrite E. Qed.

Lemma accept_run e f ub inc pats sel : env_ok e →
  selected e f ub inc pats = Ok sel → plan e ub f sel →
  let o := accept e ub inc pats f in
  Forall (run_inv e f sel (staged_paths sel)) (states o) ∧
  (is_ok (o_res o) = true → ∃ s2, inv e f sel s2 ∧ complete f sel s2 ∧
      cleaned s2 (staged_paths sel) (staged_paths sel) (o_fs o)).
Proof.
  intros He Hsel Hplan. cbv zeta. unfold selected in Hsel.
  destruct (changes e f ub inc) as [all|] eqn:Eall; [|done]. simpl in Hsel. injection Hsel as <-.
  unfold accept. rewrite (bind_get_ok _ _ f all) by done.
  set (sel := matching (e_glob e) (e_cwd e) pats all) in *.
  assert (run_inv e f sel (staged_paths sel) f) as Hinit.
  { left. by eapply inv_init. }
  destruct sel as [|c0 sel0] eqn:Esel.
  { simpl. split; [by constructor|]. intros _. exists f. split; [by eapply inv_init|]. split.
    - split; [apply Hplan|]. split; [intros c Hc; by apply elem_of_nil in Hc|].
      intros q _. split; [|done]. intros (c & Hc & _). by apply elem_of_nil in Hc.
    - split; [|intros p Hp; by apply elem_of_nil in Hp]. split; [apply Hplan|]. auto. }
  cbv iota. rewrite <-Esel in *. clear Esel c0 sel0.
  destruct (pure_pretend e 0 sel f) as [P1 P2].
  destruct (o_res (accept_pass e 0 true sel f)) as [r|er] eqn:Er.
  2: { rewrite (bind_err _ _ _ er) by done. unfold states. cbn [o_trace o_fs o_res]. rewrite P1, P2.
       split; [|done]. simpl. constructor; [done|constructor]. }
  rewrite (bind_ok _ _ _ r) by done. unfold states. cbn [o_trace o_fs o_res]. rewrite P1, P2.
  assert (r.2 ≡ₚ sel) as HPr by (by eapply pretend_result; [apply Hplan|]).
  destruct (real_pass e ub f sel r.2 Hplan He HPr f eq_refl) as (R1 & R2 & R3).
  destruct (o_res (accept_pass e 2 false r.2 f)) as [r2|er2] eqn:Er2.
  - rewrite (bind_ok _ _ _ r2) by done.
    cbn [o_trace o_fs o_res ret_]. rewrite app_nil_r, app_nil_l. split.
    + apply Forall_app. split; [done|]. by constructor.
    + intros _. by apply (R3 r2).
  - rewrite (bind_err _ _ _ er2) by done. cbn [o_trace o_fs o_res]. rewrite app_nil_l. split; [|done].
    apply Forall_app. split; [done|]. by constructor.
Qed.
