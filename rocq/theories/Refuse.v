(** * Accept: what it refuses, and what it counts (any sandbox, renames included). *)
From Verif Require Export MergedView.

(** Changes accept refuses to carry out. *)
Inductive refused (f : fs) (c : change) : Prop :=
  | rf_error er : c_op c = OError er → refused f c
  | rf_remove_missing : c_op c = ORemove → c_source c = None → refused f c
  | rf_remove_special s : c_op c = ORemove → c_source c = Some s →
      d_is_file s = false → d_is_symlink s = false → d_is_dir s = false → refused f c
  | rf_set_missing t : c_op c = OSet t → c_staged c = None → refused f c
  | rf_set_special t s : c_op c = OSet t → c_staged c = Some s →
      d_is_file s = false → d_is_symlink s = false → d_is_dir s = false → refused f c
  | rf_cross_mount s : c_op c = ORename → c_source c = Some s →
      find_mount_point f (d_path s) ≠ find_mount_point f (c_dest c) → refused f c.

Lemma bind_inv {A B : Type} (m : M A) (k : A → M B) (s : fs) (r : B) :
  o_res (bind_ m k s) = Ok r → ∃ a, o_res (m s) = Ok a ∧ o_res (k a (o_fs (m s))) = Ok r.
Proof.
  destruct (o_res (m s)) as [a|er] eqn:E.
  - rewrite (bind_ok _ _ _ a) by done. cbn [o_res]. eauto.
  - by rewrite (bind_err _ _ _ er) by done.
Qed.

Lemma pure_for_ok {A : Type} (l : list A) (g : A → M unit) (f : fs) (r : unit) :
  (∀ x, pure (g x)) → o_res (for_ l g f) = Ok r → ∀ x, x ∈ l → o_res (g x f) = Ok tt.
Proof.
  intros Hp. induction l as [|y l IH]; intros H x Hx; [by apply elem_of_nil in Hx|].
  cbn [for_] in H. apply bind_inv in H as ([] & H1 & H2).
  destruct (Hp y f) as [_ Hf]. rewrite Hf in H2.
  apply elem_of_cons in Hx as [->|Hx]; [done|by apply IH].
Qed.

Lemma assign_tmp_fields e ph i c : c_dest (assign_tmp e ph i c) = c_dest c ∧ c_op (assign_tmp e ph i c) = c_op c ∧
  c_source (assign_tmp e ph i c) = c_source c ∧ c_staged (assign_tmp e ph i c) = c_staged c.
Proof. unfold assign_tmp. destruct (c_op c) eqn:E; try done. destruct (c_source c) eqn:E'; done. Qed.
Lemma assign_tmp_some e ph i c s : c_op c = ORename → c_source c = Some s → is_Some (c_tmp (assign_tmp e ph i c)).
Proof. intros E1 E2. unfold assign_tmp. rewrite E1, E2. by eexists. Qed.

Lemma elem_of_imap_1 {A B : Type} (g : nat → A → B) (l : list A) x : x ∈ l → ∃ i, g i x ∈ imap g l.
Proof.
  intros Hx. apply elem_of_list_lookup in Hx as [i Hi]. exists i.
  apply elem_of_list_lookup. exists i. by rewrite list_lookup_imap, Hi.
Qed.

Lemma pretend_refuses e cs f r c : o_res (accept_pass e 0 true cs f) = Ok r → c ∈ cs → ¬ refused f c.
Proof.
  intros H Hc. unfold accept_pass in H.
  set (l1 := sort_by by_reverse_source cs) in *.
  apply bind_inv in H as (r1 & E1 & H).
  destruct (pure_accum l1 (accept_remove true) (pure_accept_remove) f) as [_ P1].
  rewrite P1 in H. set (l2 := imap (assign_tmp e 0) (sort_by by_reverse_source l1)) in *.
  apply bind_inv in H as ([] & E2 & H).
  destruct (pure_for l2 (accept_premove true) pure_accept_premove f) as [_ P2]. rewrite P2 in H.
  apply bind_inv in H as (r3 & E3 & _).
  set (l3 := sort_by by_destination l2) in *.
  assert (c ∈ l1) as Hc1 by (unfold l1; by rewrite elem_of_sort_by).
  destruct (accum_ok l1 (accept_remove true) f ltac:(by rewrite E1) c Hc1) as [s1 Hs1].
  destruct (elem_of_imap_1 (assign_tmp e 0) (sort_by by_reverse_source l1) c ltac:(by rewrite elem_of_sort_by)) as [j Hj].
  fold l2 in Hj. set (c' := assign_tmp e 0 j c) in *.
  destruct (assign_tmp_fields e 0 j c) as (F1 & F2 & F3 & F4). fold c' in F1, F2, F3, F4.
  pose proof (pure_for_ok l2 (accept_premove true) f tt pure_accept_premove E2 c' Hj) as Hs2.
  destruct (elem_of_imap_1 (λ i c, (i, c)) l3 c') as [i Hi]; [unfold l3; by rewrite elem_of_sort_by|].
  destruct (accum_ok _ _ f ltac:(by rewrite E3) (i, c') Hi) as [s3 Hs3].
  clear -Hs1 Hs2 Hs3 F1 F2 F3 F4. unfold accept_remove in Hs1. unfold accept_set in Hs3. rewrite F2, F4 in Hs3.
  destruct 1 as [er Ho|Ho Hn|s Ho Hs X1 X2 X3|t Ho Hn|t s Ho Hs X1 X2 X3|s Ho Hs Hne].
  - by rewrite Ho in Hs3.
  - by rewrite Ho, Hn in Hs1.
  - by rewrite Ho, Hs, X1, X2, X3 in Hs1.
  - by rewrite Ho, Hn in Hs3.
  - by rewrite Ho, Hs, X1, X2, X3 in Hs3.
  - apply Hne. unfold accept_premove in Hs2. rewrite F1, F2, F3, Ho, Hs in Hs2.
    destruct (assign_tmp_some e 0 j c s Ho Hs) as [t Ht]. fold c' in Ht. rewrite Ht in Hs2.
    apply bind_inv in Hs2 as (m1 & G1 & Hs2). apply bind_inv in Hs2 as (m2 & G2 & Hs2).
    apply bind_inv in Hs2 as (m3 & G3 & Hs2). cbn in G1, G2, G3. rewrite G1, G3.
    destruct (decide (m1 = m2 ∧ m2 = m3)) as [[-> ->]|]; [done|]. done.
Qed.

Theorem accept_refuses e f ub inc pats sel c :
  selected e f ub inc pats = Ok sel → c ∈ sel → refused f c →
  ∃ er, accept e ub inc pats f = Out [] f (Err er).
Proof.
  intros Hsel Hc Hr. unfold selected in Hsel.
  destruct (changes e f ub inc) as [all|] eqn:Eall; [|done]. simpl in Hsel. injection Hsel as <-.
  unfold accept. rewrite (bind_get_ok _ _ f all) by done.
  set (sel := matching (e_glob e) (e_cwd e) pats all) in *.
  destruct sel as [|c0 sel0] eqn:Esel; [by apply elem_of_nil in Hc|].
  cbv iota. rewrite <-Esel in *. clear Esel c0 sel0.
  destruct (pure_pretend e 0 sel f) as [P1 P2].
  destruct (o_res (accept_pass e 0 true sel f)) as [r|er] eqn:Er.
  - by destruct (pretend_refuses e sel f r c Er Hc).
  - exists er. rewrite (bind_err _ _ _ er) by done. by rewrite P1, P2.
Qed.

(** ** Counting *)
Definition worth (c : change) : nat :=
  match c_op c with
  | OSet _ => if is_actually_modified c then 1 else 0
  | ORemove => 1
  | ORename => 1
  | OError _ => 0
  end.
Definition worth_removed (c : change) : nat := match c_op c with ORemove => 1 | _ => 0 end.
Definition worth_set (c : change) : nat := match c_op c with ORemove => 0 | _ => worth c end.

Lemma count_actionable_sum l : count_actionable l = sum_by worth l.
Proof.
  unfold count_actionable. induction l as [|c l IH]; [done|]. simpl sum_by.
  destruct (actionable c) eqn:E.
  - rewrite filter_cons_True by done. cbn [length]. rewrite IH. unfold actionable in E. unfold worth.
    destruct (c_op c); try done. by rewrite E.
  - rewrite filter_cons_False by (by rewrite E). rewrite IH. unfold actionable in E. unfold worth.
    destruct (c_op c); try done. by rewrite E.
Qed.

Lemma sum_by_perm {A : Type} (g : A → nat) (l l' : list A) : l ≡ₚ l' → sum_by g l = sum_by g l'.
Proof. induction 1; simpl; lia. Qed.
Lemma sum_by_add {A : Type} (g h : A → nat) (l : list A) : sum_by g l + sum_by h l = sum_by (λ x, g x + h x) l.
Proof. induction l as [|x l IH]; simpl; lia. Qed.
Lemma sum_by_ext {A : Type} (g h : A → nat) (l : list A) : (∀ x, g x = h x) → sum_by g l = sum_by h l.
Proof. intros H. induction l as [|x l IH]; simpl; [done|]. by rewrite H, IH. Qed.
Lemma sum_by_imap {A B : Type} (g : B → nat) (k : nat → A → B) (h : A → nat) (l : list A) :
  (∀ i x, g (k i x) = h x) → sum_by g (imap k l) = sum_by h l.
Proof.
  revert k. induction l as [|x l IH]; intros k H; [done|]. rewrite imap_cons. simpl. rewrite H.
  f_equal. apply IH. intros i y. apply H.
Qed.

Lemma worth_assign e ph i c : worth (assign_tmp e ph i c) = worth c.
Proof.
  destruct (assign_tmp_fields e ph i c) as (F1 & F2 & F3 & F4). unfold worth, is_actually_modified.
  by rewrite F2, F3, F4.
Qed.

Lemma accum_sum {A : Type} (g : A → M (nat * list path)) (cnt : A → nat) (l : list A) s r :
  (∀ x t r, o_res (g x t) = Ok r → r.1 = cnt x) → o_res (accum l g s) = Ok r → r.1 = sum_by cnt l.
Proof.
  intros Hg. revert s r. induction l as [|x l IH]; intros s r H; cbn [accum] in H.
  - by injection H as <-.
  - apply bind_inv in H as (r1 & H1 & H). apply bind_inv in H as (r2 & H2 & H). injection H as <-.
    simpl. by rewrite (Hg _ _ _ H1), (IH _ _ H2).
Qed.

Ltac binv H := repeat match type of H with
  | o_res (bind_ _ _ _) = Ok _ =>
      let a := fresh "a" in let E := fresh "E" in apply bind_inv in H as (a & E & H)
  end.

Lemma remove_worth pr c t r : o_res (accept_remove pr c t) = Ok r → r.1 = worth_removed c.
Proof.
  unfold accept_remove, worth_removed. destruct (c_op c); try (by intros [= <-]).
  destruct (c_source c); [|done]. intros H. binv H. by injection H as <-.
Qed.
Lemma set_worth e ph pr ic t r : o_res (accept_set e ph pr ic t) = Ok r → r.1 = worth_set ic.2.
Proof.
  destruct ic as [i c]. unfold accept_set, worth_set, worth. cbn [snd].
  destruct (c_op c) eqn:Eo; [| by intros [= <-]| |done].
  - destruct (c_staged c) as [st|]; [|done].
    intros H.
    destruct (d_is_file st); [|destruct (d_is_symlink st); [|destruct (d_is_dir st); [|done]]];
      (destruct pr; [by injection H as <-|binv H; by injection H as <-]).
  - destruct pr; [by intros [= <-]|]. destruct (c_tmp c); [|done]. intros H. binv H. by injection H as <-.
Qed.

Lemma pass_count e ph pr cs s r : o_res (accept_pass e ph pr cs s) = Ok r →
  r.1 = sum_by worth cs ∧ sum_by worth r.2 = sum_by worth cs.
Proof.
  unfold accept_pass. intros H.
  set (l1 := sort_by by_reverse_source cs) in *.
  apply bind_inv in H as (r1 & E1 & H).
  set (l2 := imap (assign_tmp e ph) (sort_by by_reverse_source l1)) in *.
  apply bind_inv in H as ([] & _ & H). set (l3 := sort_by by_destination l2) in *.
  apply bind_inv in H as (r3 & E3 & H). apply bind_inv in H as ([] & _ & H). injection H as <-. cbn [fst snd].
  apply (accum_sum _ worth_removed) in E1; [|intros; by eapply remove_worth].
  apply (accum_sum _ (λ ic : nat * change, worth_set ic.2)) in E3; [|intros; by eapply set_worth].
  rewrite E1, E3. rewrite (sum_by_imap _ _ worth_set) by done.
  assert (sum_by worth l3 = sum_by worth cs) as Ew.
  { unfold l3. rewrite (sum_by_perm _ _ l2) by apply sort_by_perm. unfold l2.
    rewrite (sum_by_imap _ _ worth) by (intros; apply worth_assign).
    unfold l1. apply sum_by_perm. by rewrite !sort_by_perm. }
  split; [|done].
  assert (sum_by worth_removed l1 = sum_by worth_removed l3) as ->.
  { unfold l3. rewrite (sum_by_perm _ (sort_by by_destination l2) l2) by apply sort_by_perm. unfold l2.
    rewrite (sum_by_imap _ _ worth_removed).
    - apply sum_by_perm. by rewrite sort_by_perm.
    - intros i x. unfold worth_removed. by rewrite (proj1 (proj2 (assign_tmp_fields e ph i x))). }
  rewrite sum_by_add, <-Ew. apply sum_by_ext. intros c. unfold worth_removed, worth_set, worth. by destruct (c_op c).
Qed.

Lemma matching_sum glob cwd pats all : sum_by worth (matching glob cwd pats all) ≤ sum_by worth all.
Proof.
  assert (∀ (P : change → Prop) (HP : ∀ x, Decision (P x)) (l : list change),
    sum_by worth (filter P l) ≤ sum_by worth l) as H.
  { intros P HP l. induction l as [|c l IH]; [done|].
    rewrite filter_cons. simpl. destruct (decide (P c)); simpl; lia. }
  apply H.
Qed.

Theorem accept_counts e f ub inc pats all rep :
  changes e f ub inc = Ok all → o_res (accept e ub inc pats f) = Ok rep →
  default 0 (rep_accepted rep) + rep_other rep = count_actionable all.
Proof.
  intros Hc H. unfold accept in H. rewrite (bind_get_ok _ _ f all) in H by done.
  set (sel := matching (e_glob e) (e_cwd e) pats all) in *.
  pose proof (matching_sum (e_glob e) (e_cwd e) pats all) as Hle. fold sel in Hle.
  assert (non_matching_count all sel = sum_by worth all - sum_by worth sel) as Hnm.
  { unfold non_matching_count. by rewrite !count_actionable_sum. }
  rewrite count_actionable_sum.
  destruct sel as [|c0 sel0] eqn:Esel.
  { injection H as <-. cbn [default rep_accepted rep_other]. rewrite Hnm. simpl. lia. }
  cbv iota in H. rewrite <-Esel in *. clear Esel c0 sel0.
  apply bind_inv in H as (r1 & E1 & H). apply bind_inv in H as (r2 & E2 & H). injection H as <-.
  cbn [default rep_accepted rep_other]. apply pass_count in E1 as [_ E1]. apply pass_count in E2 as [E2 _].
  simpl. rewrite Hnm. lia.
Qed.
