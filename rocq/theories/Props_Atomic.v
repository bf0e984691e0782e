(** * C04 for every sandbox and every selection: between any two consecutive moments of an accept a regular file keeps its content,
    or is replaced at once by the complete content of an accepted change for that path. *)
From Verif Require Export Props_General.

(** ** Vocabulary *)
(** Names accept makes up: "….uuid" for copies (accept.rs:290-300), ".rename-…-uuid" for directories moved aside
    (accept.rs:173-206). *)
Definition made_up (e : env) (x : string) : Prop :=
  ∃ i, ends_with ("." +:+ e_uuid e 3 i) x = true ∨ ends_with ("-" +:+ e_uuid e 2 i) x = true.
(** In state [a] the accepted change [x] has the content [c] for the host path [p]: [p] is its destination, and [c] is the
    complete content of the staged file, or of the file that the rename took away from its old place. *)
Definition brings (e : env) (a : fs) (x : change) (p : path) (c : string) : Prop :=
  lookup_l a (c_dest x) = Ok p ∧
  ((∃ t d n, c_op x = OSet t ∧ c_staged x = Some d ∧ d_is_file d = true ∧ stat a (d_path d) = Ok n ∧ n_kind n = KFile c) ∨
   (∃ src i q n, c_op x = ORename ∧ c_source x = Some src ∧
      lookup_l a (tmp_name (e_cwd e) (d_path src) (c_dest x) (e_uuid e 2 i)) = Ok q ∧ a !! q = Some n ∧ n_kind n = KFile c)).

(** ** Chains of states *)
Fixpoint chain (R : fs → fs → Prop) (s : fs) (l : list fs) : Prop :=
  match l with [] => True | x :: l' => R s x ∧ chain R x l' end.
Fixpoint final (s : fs) (l : list fs) : fs := match l with [] => s | x :: l' => final x l' end.
Lemma chain_app (R : fs → fs → Prop) (s : fs) (l k : list fs) : chain R s l → chain R (final s l) k → chain R s (l ++ k).
Proof. revert s. induction l as [|x l IH]; intros s; cbn [chain final app]; [done|]. intros [H1 H2] H3. split; [exact H1|]. by apply IH. Qed.
Lemma final_app (s : fs) (l k : list fs) : final s (l ++ k) = final (final s l) k.
Proof. revert s. induction l as [|x l IH]; intros s; cbn [final app]; [done|]. apply IH. Qed.
Lemma chain_lookup (R : fs → fs → Prop) (s : fs) (l : list fs) (i : nat) (a b : fs) : chain R s l →
  (s :: l) !! i = Some a → (s :: l) !! S i = Some b → R a b.
Proof.
  revert s i. induction l as [|x l IH]; intros s i; cbn [chain].
  - intros _ _ H. destruct i; discriminate H.
  - intros [H1 H2]. destruct i as [|i].
    + cbn. intros Ha Hb. injection Ha as <-. injection Hb as <-. exact H1.
    + intros Ha Hb. apply (IH x i H2 Ha Hb).
Qed.
Definition stepwise {A : Type} (R : fs → fs → Prop) (P : fs → Prop) (m : M A) (Q : A → fs → Prop) : Prop :=
  ∀ s, P s → chain R s (o_trace (m s)) ∧ final s (o_trace (m s)) = o_fs (m s) ∧ ∀ a, o_res (m s) = Ok a → Q a (o_fs (m s)).
Lemma sw_bind {A B : Type} (R : fs → fs → Prop) (P : fs → Prop) (m : M A) (k : A → M B) (Q : A → fs → Prop) (Q' : B → fs → Prop) :
  stepwise R P m Q → (∀ a, stepwise R (Q a) (k a) Q') → stepwise R P (bind_ m k) Q'.
Proof.
  intros Hm Hk s Hs. destruct (Hm s Hs) as (H1 & H2 & H3). unfold bind_. destruct (o_res (m s)) as [a|er] eqn:E; cbn [o_trace o_fs o_res].
  - destruct (Hk a _ (H3 a eq_refl)) as (K1 & K2 & K3). split; [apply chain_app; [exact H1|by rewrite H2]|]. split; [by rewrite final_app, H2|exact K3].
  - split; [exact H1|]. split; [exact H2|]. intros a Ha. inversion Ha.
Qed.

(** ** Lookups in trees whose names may be anything *)
Definition tiered (s : fs) : Prop := is_dir_at s [] ∧ ∀ p c n, s !! (p ++ [c]) = Some n → is_dir_at s p.
Lemma wf_tiered (s : fs) : wf_tree s → tiered s.
Proof. intros H. split; [destruct (wf_root s H) as (n & ? & ?); by exists n|]. intros p c n Hn. destruct (wf_parent s H p c n Hn) as (d & ? & ?). by exists d. Qed.
Lemma tiered_prefix (s : fs) (p r : path) (n : node) : tiered s → s !! (p ++ r) = Some n → r ≠ [] → is_dir_at s p.
Proof.
  intros [_ Ht]. revert n. induction r as [|x r IH] using rev_ind; intros n Hn Hr; [done|].
  rewrite app_assoc in Hn. pose proof (Ht _ _ _ Hn) as Hd. destruct r as [|y r]; [by rewrite app_nil_r in Hd|].
  destruct Hd as (d & Hd & _). by apply (IH d Hd).
Qed.
Lemma tiered_parent (s : fs) (n : nat) (follow : bool) (cur todo q : path) : tiered s → is_Some (s !! cur) → walk n s follow cur todo = Ok q →
  is_Some (s !! q) ∨ ∃ q' c, q = q' ++ [c] ∧ is_dir_at s q'.
Proof.
  intros Ht. revert cur todo. induction n as [n IHn] using lt_wf_ind. intros cur todo. revert cur.
  induction todo as [|c rest IH]; intros cur Hcur.
  - rewrite walk_nil. injection 1 as <-. by left.
  - rewrite walk_cons. destruct (String.eqb c "" || String.eqb c "."); [by apply IH|].
    destruct (String.eqb c "..").
    { apply IH. destruct (path_snoc_case cur) as [-> |(q' & x & ->)]; [done|].
      rewrite removelast_snoc. destruct Hcur as [m Hm]. destruct (proj2 Ht _ _ _ Hm) as (d & Hd & _). by exists d. }
    destruct (s !! cur) as [d|] eqn:Ed; [|done]. destruct (is_kdir (n_kind d)) eqn:Ek; [|done].
    destruct (s !! (cur ++ [c])) as [nd|] eqn:En.
    + assert (walk n s follow (cur ++ [c]) rest = Ok q → is_Some (s !! q) ∨ ∃ q' c, q = q' ++ [c] ∧ is_dir_at s q') as Hgo
        by (apply IH; by eexists).
      destruct (n_kind nd) eqn:Ekn; try exact Hgo.
      assert (match n with
              | 0 => Err ELOOP
              | S n' => walk n' s follow (if is_abs target then [] else cur) (split_on "/" target ++ rest)
              end = Ok q → is_Some (s !! q) ∨ ∃ q' c, q = q' ++ [c] ∧ is_dir_at s q') as Hl.
      { destruct n as [|n']; [done|]. apply IHn; [lia|]. destruct (is_abs target); [|by eexists].
        destruct Ht as [(r & Hr & _) _]. by eexists. }
      destruct rest; [|done]. destruct follow; [done|]. injection 1 as <-. left. by eexists.
    + destruct rest; [|done]. injection 1 as <-. right. exists cur, c. split; [done|]. exists d. split; [done|]. by apply is_kdir_true.
Qed.
Lemma tiered_lookup (s : fs) (follow : bool) (p q : path) : tiered s → walk max_links s follow [] p = Ok q → s !! q = None →
  ∃ q' c, q = q' ++ [c] ∧ is_dir_at s q'.
Proof.
  intros Ht Hw Hn. destruct (tiered_parent s _ _ _ _ _ Ht ltac:(destruct Ht as [(r & Hr & _) _]; by exists r) Hw) as [[m Hm]|H]; [congruence|exact H].
Qed.

(** A new file hides nothing: a lookup that succeeded gives the same afterwards. *)
Lemma walk_new (s : fs) (q : path) (m : node) : s !! q = None → is_kdir (n_kind m) = false → is_klink (n_kind m) = false →
  ∀ n follow cur todo r, walk n s follow cur todo = Ok r → walk n (<[q := m]> s) follow cur todo = Ok r.
Proof.
  intros Hq Hd Hl. induction n as [n IHn] using lt_wf_ind. intros follow cur todo. revert cur.
  induction todo as [|c rest IH]; intros cur r; [by rewrite !walk_nil|].
  rewrite !walk_cons. destruct (String.eqb c "" || String.eqb c "."); [by apply IH|]. destruct (String.eqb c ".."); [by apply IH|].
  destruct (s !! cur) as [d|] eqn:Ed; [|done]. rewrite lookup_insert_ne by congruence. rewrite Ed.
  destruct (is_kdir (n_kind d)) eqn:Ek; [|done]. destruct (decide (q = cur ++ [c])) as [-> |Hne].
  - rewrite Hq, lookup_insert. destruct rest; [|done]. intros [= <-]. destruct (n_kind m); try discriminate Hl; by rewrite walk_nil.
  - rewrite lookup_insert_ne by done. destruct (s !! (cur ++ [c])) as [nd|] eqn:En; [|done].
    assert (match n with 0 => Err ELOOP | S n' => walk n' s follow (if is_abs match n_kind nd with KLink t => t | _ => "" end then [] else cur)
              (split_on "/" match n_kind nd with KLink t => t | _ => "" end ++ rest) end = Ok r →
            match n with 0 => Err ELOOP | S n' => walk n' (<[q:=m]> s) follow (if is_abs match n_kind nd with KLink t => t | _ => "" end then [] else cur)
              (split_on "/" match n_kind nd with KLink t => t | _ => "" end ++ rest) end = Ok r) as Hgo.
    { destruct n as [|n']; [done|]. apply IHn. lia. }
    destruct (n_kind nd); try by apply IH. destruct rest; [destruct follow|]; done.
Qed.

(** ** The steps *)
Section steps.
  Context (e : env) (cs : list change).
  (** What one step may do to regular files. *)
  Definition fine (a b : fs) : Prop := ∀ p n n' c c', a !! p = Some n → n_kind n = KFile c → b !! p = Some n' → n_kind n' = KFile c' →
    c' = c ∨ (∃ q x, p = q ++ [x] ∧ made_up e x) ∨ ∃ x, x ∈ cs ∧ brings e a x p c'.
  Definition tidy (s : fs) : Prop := tiered s ∧ ∀ p x, is_Some (s !! (p ++ [x])) → ¬ temp_name e x.
  #[local] Notation sw m := (stepwise fine tidy m (λ _, tidy)).

  Lemma fine_same (a b : fs) : (∀ p n n' c, a !! p = Some n → n_kind n = KFile c → b !! p = Some n' → n_kind n' = n_kind n) → fine a b.
  Proof. intros H p n n' c c' Ha Hc Hb Hc'. left. pose proof (H p n n' c Ha Hc Hb). congruence. Qed.
  Lemma fine_refl (a : fs) : fine a a.
  Proof. apply fine_same. intros; congruence. Qed.

  Lemma sw_ret {A : Type} (a : A) : sw (ret_ a).
  Proof. intros s Hs. split; [exact I|]. split; [reflexivity|]. intros ? _. exact Hs. Qed.
  Lemma sw_throw {A : Type} (er : err) : sw (throw er : M A).
  Proof. intros s Hs. split; [done|]. split; [done|]. intros a Ha. inversion Ha. Qed.
  Lemma sw_get {A : Type} (r : fs → res A) : sw (get_ r).
  Proof. intros s Hs. split; [exact I|]. split; [reflexivity|]. intros ? _. exact Hs. Qed.
  Lemma sw_then {A B : Type} (m : M A) (k : A → M B) : sw m → (∀ a, sw (k a)) → sw (bind_ m k).
  Proof. intros Hm Hk. exact (sw_bind fine tidy m k (λ _, tidy) (λ _, tidy) Hm Hk). Qed.
  Lemma sw_for {A : Type} (l : list A) (g : A → M unit) : (∀ x, x ∈ l → sw (g x)) → sw (for_ l g).
  Proof.
    induction l as [|x l IH]; intros H; cbn [for_]; [apply sw_ret|].
    apply sw_then; [apply H; left|]. intros _. apply IH. intros y Hy. apply H. by right.
  Qed.
  Lemma sw_accum {A : Type} (l : list A) (g : A → M (nat * list path)) : (∀ x, x ∈ l → sw (g x)) → sw (accum l g).
  Proof.
    induction l as [|x l IH]; intros H; cbn [accum]; [apply sw_ret|].
    apply sw_then; [apply H; left|]. intros r. apply sw_then; [|intros r'; apply sw_ret].
    apply IH. intros y Hy. apply H. by right.
  Qed.
  Lemma sw_step (P : fs → Prop) (m : M unit) : (∀ s, P s → (∃ er, m s = fail_ s er) ∨ ∃ s', m s = emit s' ∧ fine s s' ∧ tidy s') → stepwise fine P m (λ _, tidy).
  Proof.
    intros H s Hs. destruct (H s Hs) as [[er ->]|(s' & -> & Hf & Hs')]; cbn.
    - split; [done|]. split; [done|]. intros a Ha. inversion Ha.
    - split; [by split|]. split; [reflexivity|]. intros _ _. exact Hs'.
  Qed.

  Lemma fine_sub (s s' : fs) : s' ⊆ s → fine s s'.
  Proof. intros H. apply fine_same. intros p n n' c Hn _ Hn'. assert (s !! p = Some n') by (by eapply lookup_weaken). congruence. Qed.
  Lemma tidy_delete (s : fs) (q : path) : tidy s → q ≠ [] → below s q = [] → tidy (delete q s).
  Proof.
    intros [Ht Hn] Hq Hb. split.
    - destruct Ht as [(r & Hr & Hk) Hp]. split.
      + exists r. by rewrite lookup_delete_ne.
      + intros p c n Hn'. apply lookup_delete_Some in Hn' as [_ Hn']. destruct (Hp p c n Hn') as (d & Hd & Hdk). exists d. split; [|done].
        rewrite lookup_delete_ne; [done|]. intros ->. rewrite below_nil in Hb. rewrite (Hb [c]) in Hn' by done. discriminate Hn'.
    - intros p x [n Hx]. apply lookup_delete_Some in Hx as [_ Hx]. apply (Hn p x). by exists n.
  Qed.
  Lemma tiered_nondir (s : fs) (q : path) (n : node) : tiered s → s !! q = Some n → is_kdir (n_kind n) = false → q ≠ [] ∧ below s q = [].
  Proof.
    intros Ht Hn Hk. split.
    - intros ->. destruct Ht as [(r & Hr & Hrk) _]. rewrite Hn in Hr. injection Hr as <-. by rewrite Hrk in Hk.
    - apply below_nil. intros r Hr. destruct (s !! (q ++ r)) eqn:E; [|done]. destruct (tiered_prefix s q r _ Ht E Hr) as (d & Hd & Hdk).
      rewrite Hn in Hd. injection Hd as <-. by rewrite Hdk in Hk.
  Qed.
  Lemma tiered_none (s : fs) (q : path) : tiered s → s !! q = None → below s q = [].
  Proof.
    intros Ht Hn. apply below_nil. intros r Hr. destruct (s !! (q ++ r)) eqn:E; [|done]. destruct (tiered_prefix s q r _ Ht E Hr) as (d & Hd & _). congruence.
  Qed.
  Lemma tidy_same (s : fs) (q : path) (n n' : node) : tidy s → s !! q = Some n → n_kind n' = n_kind n → tidy (<[q := n']> s).
  Proof.
    intros [[(r & Hr & Hk) Hp] Hn] Hq Hkk.
    assert (∀ p, is_dir_at s p → is_dir_at (<[q := n']> s) p) as Hup.
    { intros p (d & Hd & Hdk). destruct (decide (q = p)) as [-> |Hne]; [|exists d; by rewrite lookup_insert_ne].
      exists n'. rewrite lookup_insert. split; [done|]. congruence. }
    split; [split|].
    - apply Hup. by exists r.
    - intros p c m Hm. apply Hup. destruct (decide (q = p ++ [c])) as [-> |Hne]; [by eapply Hp|]. rewrite lookup_insert_ne in Hm by done. by eapply Hp.
    - intros p x [m Hm]. apply (Hn p x). destruct (decide (q = p ++ [x])) as [-> |Hne]; [by exists n|]. rewrite lookup_insert_ne in Hm by done. by exists m.
  Qed.
  Lemma tiered_new (s : fs) (d : path) (x : string) (n : node) : tiered s → is_dir_at s d → s !! (d ++ [x]) = None → tiered (<[d ++ [x] := n]> s).
  Proof.
    intros [(r & Hr & Hk) Hp] Hd Hq.
    assert (∀ p, is_dir_at s p → is_dir_at (<[d ++ [x] := n]> s) p) as Hup.
    { intros p (m & Hm & Hmk). exists m. rewrite lookup_insert_ne; [done|]. congruence. }
    split.
    - apply Hup. by exists r.
    - intros p c m Hm. apply Hup. destruct (decide (d ++ [x] = p ++ [c])) as [E|Hne].
      + apply app_inj_tail in E as [<- _]. exact Hd.
      + rewrite lookup_insert_ne in Hm by done. by eapply Hp.
  Qed.
  Lemma tidy_new (s : fs) (d : path) (x : string) (n : node) : tidy s → is_dir_at s d → s !! (d ++ [x]) = None → ¬ temp_name e x → tidy (<[d ++ [x] := n]> s).
  Proof.
    intros [Ht Hn] Hd Hq Hx. split; [by apply tiered_new|].
    intros p y [m Hm]. destruct (decide (d ++ [x] = p ++ [y])) as [E|Hne]; [by apply app_inj_tail in E as [_ <-]|].
    rewrite lookup_insert_ne in Hm by done. apply (Hn p y). by exists m.
  Qed.
  Lemma fine_new (s : fs) (q : path) (n : node) : s !! q = None → fine s (<[q := n]> s).
  Proof. intros Hq. apply fine_same. intros p m m' c Hm _ Hm'. rewrite lookup_insert_ne in Hm' by congruence. congruence. Qed.
  Lemma fine_kind (s : fs) (q : path) (n n' : node) : s !! q = Some n → n_kind n' = n_kind n → fine s (<[q := n']> s).
  Proof.
    intros Hq Hk. apply fine_same. intros p m m' c Hm _ Hm'. destruct (decide (q = p)) as [-> |Hne]; [|rewrite lookup_insert_ne in Hm' by done; congruence].
    rewrite lookup_insert in Hm'. congruence.
  Qed.

  Lemma sw_unlink (p : path) : sw (sys_unlink p).
  Proof.
    apply sw_step. intros s Hs. unfold sys_unlink. destruct (lookup_l s p) as [q|er]; [|left; by eexists].
    destruct (s !! q) as [n|] eqn:En; [|left; by eexists]. destruct (is_kdir (n_kind n)) eqn:Ek; [left; by eexists|].
    right. eexists. split; [reflexivity|]. destruct (tiered_nondir s q n (proj1 Hs) En Ek) as [Hq Hb].
    split; [apply fine_sub, delete_subseteq|by apply tidy_delete].
  Qed.
  Lemma sw_rmdir (p : path) : sw (sys_rmdir p).
  Proof.
    apply sw_step. intros s Hs. unfold sys_rmdir. destruct (lookup_l s p) as [q|er]; [|left; by eexists].
    destruct (s !! q) as [n|]; [|left; by eexists]. destruct (is_kdir (n_kind n)); [|left; by eexists].
    destruct q as [|x q]; [left; by eexists|]. case_decide; [|left; by eexists].
    destruct (below s (x :: q)) eqn:Eb; [|left; by eexists].
    right. eexists. split; [reflexivity|]. split; [apply fine_sub, delete_subseteq|by apply tidy_delete].
  Qed.
  Lemma sw_rmdir_recursive (fuel : nat) (ord : list path → list path) (p : path) : sw (rmdir_recursive fuel ord p).
  Proof.
    revert p. induction fuel as [|n IH]; intros p; cbn [rmdir_recursive]; [apply sw_throw|].
    apply sw_then; [apply sw_get|]. intros root. apply sw_then; [apply sw_get|]. intros names.
    apply sw_then; [|intros _; apply sw_rmdir].
    apply sw_for. intros ep _. apply sw_then; [apply sw_get|]. intros st.
    destruct (negb (N.eqb (n_dev st) (n_dev root))); [apply sw_throw|].
    destruct (is_kdir (n_kind st)); [apply IH|apply sw_unlink].
  Qed.
  Lemma sw_clean_one (p : path) : sw (clean_one e p).
  Proof.
    unfold clean_one. apply sw_then; [apply sw_get|]. intros [|]; [|apply sw_unlink].
    intros s Hs. unfold rmdir_rec. exact (sw_rmdir_recursive _ _ _ s Hs).
  Qed.
  Lemma sw_lchown (p : path) (u g : N) : sw (sys_lchown p u g).
  Proof.
    apply sw_step. intros s Hs. unfold sys_lchown. destruct (lookup_l s p) as [q|er]; [|left; by eexists].
    destruct (s !! q) as [n|] eqn:En; [|left; by eexists]. right. eexists. split; [reflexivity|].
    split; [by eapply fine_kind|by eapply tidy_same].
  Qed.
  Lemma sw_lchmod (p : path) (m : N) : sw (sys_lchmod p m).
  Proof.
    apply sw_step. intros s Hs. unfold sys_lchmod. destruct (lookup_l s p) as [q|er]; [|left; by eexists].
    destruct (s !! q) as [n|] eqn:En; [|left; by eexists]. destruct (is_klink (n_kind n)); [left; by eexists|].
    right. eexists. split; [reflexivity|]. split; [by eapply fine_kind|by eapply tidy_same].
  Qed.
  Lemma sw_set_permissions (p : path) (d : details) : sw (set_permissions p d).
  Proof.
    unfold set_permissions. apply sw_then; [apply sw_lchown|]. intros _.
    destruct (N.eqb (N.land (d_mode d) S_IFMT) S_IFLNK); [apply sw_ret|apply sw_lchmod].
  Qed.
  Lemma sw_mkdir (um : N) (p : path) (x : string) : plain x → ¬ temp_name e x → sw (sys_mkdir um (p ++ [x])).
  Proof.
    intros Hx Ht. apply sw_step. intros s Hs. unfold sys_mkdir. destruct (lookup_l s (p ++ [x])) as [q|er] eqn:El; [|left; by eexists].
    destruct (s !! q) as [n|] eqn:En; [left; by eexists|]. right. eexists. split; [reflexivity|]. split; [by apply fine_new|].
    destruct (lookup_l_last s p x q Hx El) as [d ->]. destruct (tiered_lookup s false _ _ (proj1 Hs) El En) as (d' & y & E & Hd).
    apply app_inj_tail in E as [<- <-]. by apply tidy_new.
  Qed.
  Lemma sw_symlink (t : string) (p : path) (x : string) : plain x → ¬ temp_name e x → sw (sys_symlink t (p ++ [x])).
  Proof.
    intros Hx Ht. apply sw_step. intros s Hs. unfold sys_symlink. destruct (lookup_l s (p ++ [x])) as [q|er] eqn:El; [|left; by eexists].
    destruct (s !! q) as [n|] eqn:En; [left; by eexists|]. right. eexists. split; [reflexivity|]. split; [by apply fine_new|].
    destruct (lookup_l_last s p x q Hx El) as [d ->]. destruct (tiered_lookup s false _ _ (proj1 Hs) El En) as (d' & y & E & Hd).
    apply app_inj_tail in E as [<- <-]. by apply tidy_new.
  Qed.

  (** rename(2) *)
  Lemma tiered_moved (s : fs) (o d : path) (x : string) : tiered s → is_dir_at s d → under o (d ++ [x]) = false → under (d ++ [x]) o = false →
    tiered (moved s o (d ++ [x])).
  Proof.
    intros [(r & Hr & Hk) Hp] Hd U1 U2.
    assert (∀ p, under (d ++ [x]) p = false → under o p = false → is_dir_at s p → is_dir_at (moved s o (d ++ [x])) p) as Hup.
    { intros p H1 H2 (m & Hm & Hmk). exists m. rewrite lookup_moved by done. apply path_strip_None in H1. by rewrite H1, H2. }
    split.
    - apply Hup; [| |by exists r].
      + apply under_false. intros [z Hz]. symmetry in Hz. apply app_eq_nil in Hz as [Hz _]. by destruct d.
      + apply under_false. intros [z Hz]. symmetry in Hz. apply app_eq_nil in Hz as [-> _]. by rewrite under_nil in U1.
    - intros p c m Hm. rewrite lookup_moved in Hm by done. destruct (path_strip (d ++ [x]) (p ++ [c])) as [z|] eqn:Ez.
      + apply path_strip_spec in Ez. destruct (path_snoc_case z) as [-> |(z' & y & ->)].
        * rewrite app_nil_r in Ez. apply app_inj_tail in Ez as [-> ->]. apply Hup; [| |exact Hd].
          -- apply under_false. intros [w Hw]. apply (f_equal length) in Hw. rewrite !app_length in Hw. cbn in Hw. lia.
          -- destruct (under o d) eqn:E; [|done]. apply under_spec in E as [w ->]. rewrite <-app_assoc, under_app in U1. discriminate U1.
        * rewrite app_assoc in Ez. apply app_inj_tail in Ez as [-> ->]. rewrite app_assoc in Hm. destruct (Hp _ _ _ Hm) as (k & Hkk & Hkd).
          exists k. rewrite lookup_moved by done. by rewrite path_strip_app.
      + destruct (under o (p ++ [c])) eqn:Eo; [discriminate Hm|]. apply Hup; [| |by eapply Hp].
        * apply path_strip_None in Ez. destruct (under (d ++ [x]) p) eqn:E; [|done]. apply under_spec in E as [w ->].
          rewrite <-app_assoc, under_app in Ez. discriminate Ez.
        * destruct (under o p) eqn:E; [|done]. apply under_spec in E as [w ->]. rewrite <-app_assoc, under_app in Eo. discriminate Eo.
  Qed.
  Lemma rename_ok (s : fs) (o n : path) (x : string) : tiered s → plain x → ¬ temp_name e x →
    (∀ p y co, lookup_l s o = Ok co → is_Some (s !! co) → is_Some (s !! (p ++ [y])) → p ++ [y] ≠ co → ¬ temp_name e y) →
    (∀ co cn on c, lookup_l s o = Ok co → lookup_l s (n ++ [x]) = Ok cn → s !! co = Some on → n_kind on = KFile c →
       (∃ q y, cn = q ++ [y] ∧ made_up e y) ∨ ∃ z, z ∈ cs ∧ brings e s z cn c) →
    (∀ co, lookup_l s o = Ok co → lookup_l s (n ++ [x]) = Ok co → tidy s) →
    (∃ er, sys_rename o (n ++ [x]) s = fail_ s er) ∨ ∃ s', sys_rename o (n ++ [x]) s = emit s' ∧ fine s s' ∧ tidy s'.
  Proof.
    intros Ht Hx Htx Hnames Hnew Hsame. unfold sys_rename.
    destruct (lookup_l s o) as [co|er] eqn:Eo; [|left; by eexists].
    destruct (lookup_l s (n ++ [x])) as [cn|er] eqn:El; [|left; by eexists].
    destruct (lookup_l_last s n x cn Hx El) as [d ->].
    destruct (s !! co) as [on|] eqn:Eon; [|left; by eexists].
    case_decide as Ed; [right; eexists; split; [reflexivity|]; split; [apply fine_refl|apply (Hsame co); [done|by rewrite Ed]]|].
    destruct (under co (d ++ [x])) eqn:E1; [left; by eexists|].
    destruct (under (d ++ [x]) co) eqn:E2; [left; by eexists|].
    destruct (negb (N.eqb (parent_dev s co) (parent_dev s (d ++ [x])))); [left; by eexists|].
    destruct (negb (N.eqb (n_dev on) (parent_dev s co))); [left; by eexists|].
    assert (is_dir_at s d) as Hd.
    { destruct (s !! (d ++ [x])) as [nn|] eqn:En; [by eapply (proj2 Ht)|].
      destruct (tiered_lookup s false _ _ Ht El En) as (d' & y & E & Hd). by apply app_inj_tail in E as [<- _]. }
    assert (tidy (moved s co (d ++ [x]))) as Htm.
    { split; [by apply tiered_moved|]. intros p y [m Hm]. rewrite lookup_moved in Hm by done.
      destruct (path_strip (d ++ [x]) (p ++ [y])) as [z|] eqn:Ez.
      - apply path_strip_spec in Ez. destruct (path_snoc_case z) as [-> |(z' & w & ->)].
        + rewrite app_nil_r in Ez. apply app_inj_tail in Ez as [_ ->]. exact Htx.
        + rewrite app_assoc in Ez. apply app_inj_tail in Ez as [_ ->]. rewrite app_assoc in Hm.
          apply (Hnames (co ++ z') w co eq_refl); [by exists on|by exists m|]. intros E. apply (f_equal length) in E. rewrite !app_length in E. cbn in E. lia.
      - destruct (under co (p ++ [y])) eqn:Eu; [discriminate Hm|]. apply (Hnames p y co eq_refl); [by exists on|by exists m|]. intros E. rewrite E, under_refl in Eu. discriminate Eu. }
    assert (below s (d ++ [x]) = [] → fine s (moved s co (d ++ [x]))) as Hf.
    { intros Hb p m m' c c' Hm Hc Hm' Hc'. rewrite lookup_moved in Hm' by done. destruct (path_strip (d ++ [x]) p) as [z|] eqn:Ez.
      - apply path_strip_spec in Ez as ->. destruct z as [|y z].
        + rewrite app_nil_r in Hm' |- *. rewrite Eon in Hm'. injection Hm' as <-. right.
          destruct (Hnew co (d ++ [x]) on c' eq_refl eq_refl Eon Hc') as [H|H]; [by left|by right].
        + rewrite below_nil in Hb. rewrite (Hb (y :: z)) in Hm by done. discriminate Hm.
      - destruct (under co p); [discriminate Hm'|]. left. congruence. }
    destruct (s !! (d ++ [x])) as [nn|] eqn:En.
    - destruct (is_kdir (n_kind on)).
      + destruct (is_kdir (n_kind nn)); [|left; by eexists].
        destruct (below s (d ++ [x])) eqn:Eb; [|left; by eexists].
        destruct (N.eqb (n_dev nn) (parent_dev s (d ++ [x]))); [|left; by eexists].
        right; eexists; split; [reflexivity|]. split; [by apply Hf|exact Htm].
      + destruct (is_kdir (n_kind nn)) eqn:Ek; [left; by eexists|]. right; eexists; split; [reflexivity|]. split; [|exact Htm].
        apply Hf. by destruct (tiered_nondir s _ nn Ht En Ek).
    - right; eexists; split; [reflexivity|]. split; [|exact Htm]. apply Hf. by apply tiered_none.
  Qed.

  (** Copying to a temporary name, then renaming. *)
  Definition off (q : path) (a b : fs) : Prop := ∀ p, p ≠ q → b !! p = a !! p.
  Lemma fine_off (q : path) (x : string) (a b : fs) : made_up e x → off (q ++ [x]) a b → fine a b.
  Proof.
    intros Hx H p n n' c c' Hn Hc Hn' Hc'. destruct (decide (p = q ++ [x])) as [-> |Hne]; [right; left; by exists q, x|].
    rewrite (H p Hne) in Hn'. left. congruence.
  Qed.
  Lemma chain_off (q : path) (x : string) (s a : fs) (l : list fs) : made_up e x → off (q ++ [x]) s a → Forall (off (q ++ [x]) s) l → chain fine a l.
  Proof.
    intros Hx. revert a. induction l as [|b l IH]; intros a Ha Hl; [exact I|]. apply Forall_cons in Hl as [Hb Hl]. split; [|by apply IH].
    apply (fine_off q x a b Hx). intros p Hp. by rewrite (Hb p Hp), (Ha p Hp).
  Qed.
  Definition copied (um : N) (src p : path) (x : string) (s' : fs) : Prop := ∃ s d m content sn, tidy s ∧ is_dir_at s d ∧ s !! (d ++ [x]) = None ∧
    s' = <[d ++ [x] := set_content m content]> s ∧ stat s src = Ok sn ∧ n_kind sn = KFile content.
  Lemma final_prefixes (q : path) (m : node) (s a : fs) (content : string) (g : string → string) : a = <[q := set_content m (g "")]> s →
    final a ((λ c, <[q := set_content m (g c)]> s) <$> prefixes content) = <[q := set_content m (g content)]> s.
  Proof.
    revert a g. induction content as [|c content IH]; intros a g Ha; cbn [prefixes fmap list_fmap final]; [exact Ha|].
    rewrite <-list_fmap_compose. exact (IH _ (λ z, g (String c z)) eq_refl).
  Qed.
  Lemma sw_copy (um : N) (src p : path) (x : string) : plain x → temp_name e x →
    stepwise fine tidy (sys_copy um src (p ++ [x])) (λ _, copied um src p x).
  Proof.
    intros Hx Ht s Hs. unfold sys_copy.
    assert (made_up e x) as Hmu by (destruct Ht as [i Hi]; exists i; by left).
    assert (∀ er : err, chain fine s (o_trace (fail_ (A := unit) s er)) ∧ final s (o_trace (fail_ (A := unit) s er)) = o_fs (fail_ (A := unit) s er) ∧
      ∀ a, o_res (fail_ (A := unit) s er) = Ok a → copied um src p x (o_fs (fail_ (A := unit) s er))) as Hfail.
    { intros er. cbn. split; [exact I|]. split; [reflexivity|]. intros a Ha. inversion Ha. }
    destruct (stat s src) as [sn|er] eqn:Est; [|apply Hfail].
    destruct (n_kind sn) as [content| | | | | |] eqn:Ek; try apply Hfail.
    destruct (lookup_f s (p ++ [x])) as [q|er] eqn:El; [|apply Hfail].
    assert (∃ d, q = d ++ [x]) as [d ->].
    { unfold lookup_f in El. destruct (walk_last _ _ _ _ _ _ _ Hx El) as [|[_ (d & nd & t & Hd & Hk)]]; [assumption|].
      destruct Hs as [_ H2]. destruct (H2 d x ltac:(by exists nd) Ht). }
    destruct (s !! (d ++ [x])) as [dn|] eqn:Edn; [destruct (proj2 Hs d x ltac:(by exists dn) Ht)|].
    assert (is_dir_at s d) as Hd.
    { destruct (tiered_lookup s true _ _ (proj1 Hs) El Edn) as (d' & y & E & Hd). by apply app_inj_tail in E as [<- _]. }
    cbn [o_trace o_fs o_res].
    assert (∀ m, off (d ++ [x]) s (<[d ++ [x] := m]> s)) as Hoff by (intros m r Hr; by rewrite lookup_insert_ne by congruence).
    split; [|split].
    - apply (chain_off d x s); [exact Hmu|by intros r _|]. constructor; [apply Hoff|]. constructor; [apply Hoff|]. apply Forall_fmap, Forall_true. intros c. apply Hoff.
    - cbn [final]. by apply (final_prefixes (d ++ [x]) _ s _ content (λ z, z)).
    - intros _ _. exists s, d. eexists. exists content, sn. split; [exact Hs|]. split; [exact Hd|]. split; [exact Edn|]. split; [reflexivity|]. split; [exact Est|exact Ek].
  Qed.
  Lemma sw_put (um : N) (st : details) (x : change) (t : set_type) (q : path) (y z : string) : x ∈ cs → c_op x = OSet t → c_staged x = Some st → d_is_file st = true →
    c_dest x = q ++ [y] → plain y → ¬ temp_name e y → plain z → temp_name e z →
    stepwise fine (copied um (d_path st) q z) (sys_rename (q ++ [z]) (q ++ [y])) (λ _, tidy).
  Proof.
    intros Hin Hop Hst Hfile Hdest Hy Hty Hz Htz. apply sw_step. intros s' (s & d & m & content & sn & Hs & Hd & Hn & -> & Hstat & Hk).
    set (s' := <[d ++ [z] := set_content m content]> s).
    assert (∀ co, lookup_l s' (q ++ [z]) = Ok co → is_Some (s' !! co) → co = d ++ [z]) as Hco.
    { intros co Hl [n Hn']. destruct (lookup_l_last s' q z co Hz Hl) as [d' ->]. destruct (decide (d' ++ [z] = d ++ [z])) as [->|Hne]; [done|].
      unfold s' in Hn'. rewrite lookup_insert_ne in Hn' by congruence. destruct (proj2 Hs d' z ltac:(by exists n) Htz). }
    apply rename_ok; [by apply tiered_new; [apply Hs|..]|exact Hy|exact Hty| | |].
    - intros p w co Hl Hc [n Hw] Hne. rewrite (Hco co Hl Hc) in Hne. unfold s' in Hw. rewrite lookup_insert_ne in Hw by congruence.
      apply (proj2 Hs p w). by exists n.
    - intros co cn on c Hl Hl' Hon Hc. rewrite (Hco co Hl ltac:(by exists on)) in Hon. unfold s' in Hon. rewrite lookup_insert in Hon. injection Hon as <-.
      cbn [set_content n_kind] in Hc. injection Hc as <-. right. exists x. split; [exact Hin|]. split; [by rewrite Hdest|]. left. exists t, st, sn.
      split; [exact Hop|]. split; [exact Hst|]. split; [exact Hfile|]. split; [|exact Hk].
      unfold stat in Hstat |- *. destruct (lookup_f s (d_path st)) as [r|er] eqn:Er; cbn [rbind] in Hstat; [|inversion Hstat].
      unfold lookup_f in Er |- *. pose proof (walk_new s (d ++ [z]) (set_content m content) Hn eq_refl eq_refl _ _ _ _ _ Er) as Hw. fold s' in Hw. rewrite Hw. cbn [rbind].
      destruct (s !! r) as [k|] eqn:Ek'; [|inversion Hstat]. unfold s'. rewrite lookup_insert_ne by congruence. by rewrite Ek'.
    - intros co Hl Hl'. destruct (lookup_l_last s' q z co Hz Hl) as [d1 ->]. destruct (lookup_l_last s' q y _ Hy Hl') as [d2 E].
      apply app_inj_tail in E as [_ <-]. by destruct Hty.
  Qed.

  (** A rename whose old name is not a temporary one. *)
  Lemma sw_rename (o n : path) (x : string) : plain x → ¬ temp_name e x →
    (∀ s co cn on c, lookup_l s o = Ok co → lookup_l s (n ++ [x]) = Ok cn → s !! co = Some on → n_kind on = KFile c →
       (∃ q y, cn = q ++ [y] ∧ made_up e y) ∨ ∃ z, z ∈ cs ∧ brings e s z cn c) → sw (sys_rename o (n ++ [x])).
  Proof.
    intros Hx Ht Hnew. apply sw_step. intros s Hs. apply rename_ok; [apply Hs|exact Hx|exact Ht| |apply Hnew|by intros].
    intros p y co _ _ Hy _. by apply (proj2 Hs p y).
  Qed.
End steps.

Section pass.
  Context (e : env) (cs : list change).
  Context (Hne : ∀ i, e_uuid e 3 i ≠ "") (Hsl : ∀ i, contains "/" (e_uuid e 3 i) = false) (Hlen : one_length e).
  #[local] Notation sw m := (stepwise (fine e cs) (tidy e) m (λ _, tidy e)).

  Lemma sw_accept_remove (c : change) : sw (accept_remove false c).
  Proof.
    unfold accept_remove. destruct (c_op c); try apply sw_ret.
    destruct (c_source c) as [s|]; [|apply sw_throw]. apply sw_then; [|intros _; apply sw_ret].
    destruct (d_is_file s || d_is_symlink s); [apply sw_unlink|].
    destruct (d_is_dir s); [apply sw_rmdir|apply sw_throw].
  Qed.
  Lemma sw_premove (i : nat) (c : change) : sw (accept_premove false (assign_tmp e 2 i c)).
  Proof.
    unfold accept_premove, assign_tmp. destruct (c_op c) eqn:Eo; destruct (c_source c) as [s|] eqn:Es;
      rewrite ?Eo, ?Es; cbn [c_op c_source c_tmp]; try apply sw_ret.
    unfold tmp_name. assert (plain (".rename-" +:+ text_name (d_path s) +:+ "-to-" +:+ text_name (c_dest c) +:+ "-" +:+ e_uuid e 2 i)) as Hp.
    { apply plain_long. rewrite !str_length_app. cbn. lia. }
    apply sw_rename; [exact Hp| |].
    - rewrite !str_app_assoc. rewrite <-(str_app_assoc _ "-"). by apply rename_name_not_temp.
    - intros st co cn on k _ Hl _ _. left. destruct (lookup_l_last st _ _ cn Hp Hl) as [d ->]. eexists d, _. split; [reflexivity|].
      exists i. right. apply ends_with_spec. exists (".rename-" +:+ text_name (d_path s) +:+ "-to-" +:+ text_name (c_dest c)).
      by rewrite !str_app_assoc.
  Qed.
  (** [c] is what the second pass works with for the selected change [x]. *)
  Definition stands_for (x c : change) : Prop := x ∈ cs ∧ same_change x c ∧
    (c_op c = ORename → ∀ t, c_tmp c = Some t → ∃ src i, c_source x = Some src ∧ t = tmp_name (e_cwd e) (d_path src) (c_dest x) (e_uuid e 2 i)).
  Lemma sw_accept_set (i : nat) (x c : change) : stands_for x c → (c_op c ≠ ORemove → good_dest e (c_dest c)) → sw (accept_set e 2 false (i, c)).
  Proof.
    intros (Hin & (Hop & Hst & Hdst & Hsrc) & Htmp) Hd. unfold accept_set. destruct (c_op c) as [t| | |er] eqn:Eo; [| | |apply sw_throw]; [|apply sw_ret|].
    - destruct (Hd ltac:(discriminate)) as (q & y & Hq & Hy & Hnt). pose proof (comp_plain y Hy) as Hp.
      destruct (c_staged c) as [st|] eqn:Est; [|apply sw_throw]. rewrite Hq.
      destruct (d_is_file st) eqn:Ef.
      { rewrite with_extension_snoc.
        assert (temp_name e (file_stem y +:+ "." +:+ e_uuid e 3 i)) as Htn by (exists i; apply ends_with_spec; by eexists).
        assert (plain (file_stem y +:+ "." +:+ e_uuid e 3 i)) as Hpl by (apply comp_plain; by apply tmp_comp_ok).
        refine (sw_bind _ _ _ _ (λ _, copied e (e_umask e) (d_path st) q (file_stem y +:+ "." +:+ e_uuid e 3 i)) _ _ _); [by apply sw_copy|]. intros _.
        refine (sw_bind _ _ _ _ (λ _, tidy e) _ _ _); [|intros _; apply sw_then; [apply sw_set_permissions|intros _; apply sw_ret]].
        apply (sw_put e cs (e_umask e) st x t q); [exact Hin|congruence|congruence|exact Ef|congruence|exact Hp|exact Hnt|exact Hpl|exact Htn]. }
      destruct (d_is_symlink st).
      { apply sw_then; [apply sw_get|]. intros target. apply sw_then; [apply sw_get|]. intros old.
        apply sw_then; [destruct old; [apply sw_unlink|apply sw_ret]|]. intros _.
        apply sw_then; [by apply sw_symlink|]. intros _.
        apply sw_then; [apply sw_set_permissions|]. intros _. apply sw_ret. }
      destruct (d_is_dir st); [|apply sw_throw].
      apply sw_then; [apply sw_get|]. intros isd.
      apply sw_then; [destruct isd; [apply sw_ret|by apply sw_mkdir]|]. intros _.
      apply sw_then; [apply sw_set_permissions|]. intros _. apply sw_ret.
    - destruct (Hd ltac:(discriminate)) as (q & y & Hq & Hy & Hnt). pose proof (comp_plain y Hy) as Hp.
      destruct (c_tmp c) as [t|] eqn:Et; [|apply sw_throw]. rewrite Hq.
      apply sw_then; [|intros _; apply sw_ret]. apply sw_rename; [exact Hp|exact Hnt|].
      intros s co cn on k Ho Hl Hon Hk. right. exists x. split; [exact Hin|]. split; [congruence|]. right.
      destruct (Htmp eq_refl t eq_refl) as (src & j & Es & ->). exists src, j, co, on. split; [congruence|]. auto.
  Qed.

  Lemma sw_pass (l : list change) : (∀ c, c ∈ l → c_op c ≠ ORemove → good_dest e (c_dest c)) →
    (∀ c, c ∈ l → ∃ x, x ∈ cs ∧ same_change x c ∧ (c_source c = None → c_tmp c = None)) → sw (accept_pass e 2 false l).
  Proof.
    intros Hl Hx. unfold accept_pass. apply sw_then; [apply sw_accum; intros c _; apply sw_accept_remove|].
    intros r1. apply sw_then.
    { apply sw_for. intros c Hc. apply elem_of_imap_to in Hc as (i & c0 & _ & ->). apply sw_premove. }
    intros _. apply sw_then.
    { apply sw_accum. intros [i c] Hic. apply elem_of_imap_to in Hic as (i' & c' & Hc' & [= -> ->]).
      rewrite elem_of_sort_by in Hc'. apply elem_of_imap_to in Hc' as (j & c0 & Hc0 & ->). rewrite !elem_of_sort_by in Hc0.
      destruct (Hx c0 Hc0) as (x & Hin & Hsame & Hnone). pose proof (assign_tmp_fields e 2 j c0) as Hf.
      pose proof (same_change_trans _ _ _ Hsame Hf) as Hsame'. apply (sw_accept_set i' x).
      - split; [exact Hin|]. split; [exact Hsame'|]. intros Hop t Ht. destruct Hsame as (E1 & E2 & E3 & E4).
        unfold assign_tmp in Ht, Hop. destruct (c_source c0) as [src|] eqn:Es.
        + destruct (c_op c0) eqn:Eo; try (rewrite Eo in Hop; discriminate Hop). cbn [c_tmp] in Ht. injection Ht as <-. exists src, j. split; [congruence|]. congruence.
        + assert (c_tmp c0 = Some t) as Ht' by (destruct (c_op c0); exact Ht). rewrite Hnone in Ht' by done. discriminate Ht'.
      - destruct Hf as (E1 & _ & E3 & _). rewrite E1, E3. by apply Hl. }
    intros r3. apply sw_then; [|intros _; apply sw_ret].
    unfold clean_up. apply sw_for. intros p _. apply sw_clean_one.
  Qed.
End pass.

Lemma accept_chain (e : env) (f : fs) (ub : path) (inc : bool) (pats : list string) :
  wf_tree f → env_ok e → fresh_uuids e f → one_length e →
  chain (fine e (match selected e f ub inc pats with Ok sel => sel | Err _ => [] end)) f (o_trace (accept e ub inc pats f)) ∧
  final f (o_trace (accept e ub inc pats f)) = o_fs (accept e ub inc pats f).
Proof.
  intros Hwf He Hfu Hlen.
  assert (tidy e f) as Htidy.
  { split; [by apply wf_tiered|]. intros p x Hp [j Hj]. rewrite (fu_new e f Hfu j p x Hp) in Hj. discriminate Hj. }
  destruct (selected e f ub inc pats) as [sel|er] eqn:Esel.
  2:{ rewrite (accept_unlisted _ _ _ _ _ _ Esel). by split. }
  destruct sel as [|c0 sel].
  { destruct (accept_nothing _ _ _ _ _ Esel) as [-> ->]. by split. }
  destruct (accept_passes e f ub inc pats (c0 :: sel) Esel ltac:(discriminate)) as [[er Her]|(r1 & H1 & Ht & Hf & _)].
  { rewrite Her. by split. }
  assert (stepwise (fine e (c0 :: sel)) (tidy e) (accept_pass e 2 false r1.2) (λ _, tidy e)) as Hsw.
  { rewrite (pass_result e 0 true _ f r1 H1).
    assert (∀ c, c ∈ c0 :: sel → c_tmp c = None ∧ (c_op c ≠ ORemove → good_dest e (c_dest c))) as Hsel.
    { intros c Hc. unfold selected in Esel. destruct (changes e f ub inc) as [all|er] eqn:Ec; cbn [rbind] in Esel; [|inversion Esel].
      injection Esel as Esel. rewrite <-Esel in Hc. unfold matching in Hc. apply elem_of_list_filter in Hc as [_ Hc]. split.
      - by destruct (listed_origin e f ub inc all He Ec c Hc) as (? & ? & ? & ? & ? & _ & _ & H & _).
      - apply (listed_good_dest e f ub inc all Hwf He Hfu Ec c Hc). }
    apply sw_pass; [apply (fu_nonempty e f Hfu)|apply (fu_slash e f Hfu)|exact Hlen| |].
    - intros c Hc Hop. destruct (proj2 (pass_list e 0 (c0 :: sel)) c Hc) as (c1 & Hc1 & Ho & _ & -> & _). apply (Hsel c1 Hc1). congruence.
    - intros c Hc. rewrite elem_of_sort_by in Hc. apply elem_of_imap_to in Hc as (j & c1 & Hc1 & ->). rewrite !elem_of_sort_by in Hc1.
      exists c1. split; [exact Hc1|]. split; [apply assign_tmp_fields|]. destruct (assign_tmp_fields e 0 j c1) as (_ & _ & _ & ->).
      intros Es. unfold assign_tmp. rewrite Es. destruct (c_op c1); apply (Hsel c1 Hc1). }
  destruct (Hsw f Htidy) as (Hc & Hl & _). rewrite Ht, Hf. by split.
Qed.

(** ** C04 *)
(** Every moment of a run: before it, and after each of its system calls (for the copying of a file, after every byte). *)
Definition moments (f : fs) (o : out report) : list fs := f :: o_trace o.
(** [a] and [b] are two moments of an accept with no other in between (the first moment is before anything has happened). If at both
    the path [p] is a regular file, not under one of the names accept makes up, then its content is the same, or the content at [b]
    is the complete content of a selected change for [p]. Any sandbox, any selection, also when accept fails. *)
Theorem C04_atomic : ∀ (e : env) (f : fs) (ub : path) (inc : bool) (pats : list string),
  wf_tree f → env_ok e → fresh_uuids e f → one_length e →
  last (moments f (accept e ub inc pats f)) = Some (o_fs (accept e ub inc pats f)) ∧
  ∀ i a b, moments f (accept e ub inc pats f) !! i = Some a → moments f (accept e ub inc pats f) !! S i = Some b →
  ∀ p n n' c c', a !! p = Some n → n_kind n = KFile c → b !! p = Some n' → n_kind n' = KFile c' →
    c' = c ∨ (∃ q x, p = q ++ [x] ∧ made_up e x) ∨
    ∃ sel x, selected e f ub inc pats = Ok sel ∧ x ∈ sel ∧ brings e a x p c'.
Proof.
  intros e f ub inc pats Hwf He Hfu Hlen. destruct (accept_chain e f ub inc pats Hwf He Hfu Hlen) as [Hc Hf]. split.
  { rewrite <-Hf. unfold moments. generalize (o_trace (accept e ub inc pats f)) as l. clear. intros l. revert f. induction l as [|x l IH]; intros f; [done|]. exact (IH x). }
  intros i a b Ha Hb p n n' c c' Hn Hk Hn' Hk'.
  destruct (chain_lookup _ _ _ i a b Hc Ha Hb p n n' c c' Hn Hk Hn' Hk') as [H|[H|(x & Hx & Hbr)]]; [by left|by right; left|].
  right. right. destruct (selected e f ub inc pats) as [sel|er]; [|by apply elem_of_nil in Hx]. exists sel, x. auto.
Qed.
Print Assumptions C04_atomic.

(** A file that is there all the time has its old content until, at one moment, it has the complete content of a selected change. *)
Theorem C04_old_or_new : ∀ (e : env) (f : fs) (ub : path) (inc : bool) (pats : list string),
  wf_tree f → env_ok e → fresh_uuids e f → one_length e → ∀ p, (¬ ∃ q x, p = q ++ [x] ∧ made_up e x) →
  ∀ i st, moments f (accept e ub inc pats f) !! i = Some st →
  (∀ j s, j ≤ i → moments f (accept e ub inc pats f) !! j = Some s → ∃ n c, s !! p = Some n ∧ n_kind n = KFile c) →
  ∃ n c, st !! p = Some n ∧ n_kind n = KFile c ∧
    ((∃ n0, f !! p = Some n0 ∧ n_kind n0 = KFile c) ∨
     ∃ sel x j s, j < i ∧ moments f (accept e ub inc pats f) !! j = Some s ∧ selected e f ub inc pats = Ok sel ∧ x ∈ sel ∧ brings e s x p c).
Proof.
  intros e f ub inc pats Hwf He Hfu Hlen p Hp i. destruct (C04_atomic e f ub inc pats Hwf He Hfu Hlen) as [_ Hstep].
  induction i as [|i IH]; intros st Hst Hfile.
  - destruct (Hfile 0 st (le_n 0) Hst) as (n & c & Hn & Hk). exists n, c. split; [done|]. split; [done|]. left. exists n. injection Hst as <-. done.
  - destruct (moments f (accept e ub inc pats f) !! i) as [a|] eqn:Ea.
    2:{ apply lookup_ge_None in Ea. apply lookup_lt_Some in Hst. lia. }
    destruct (IH a eq_refl ltac:(intros j s Hj; apply Hfile; lia)) as (n & c & Hn & Hk & Hor).
    destruct (Hfile (S i) st (le_n _) Hst) as (n' & c' & Hn' & Hk'). exists n', c'. split; [done|]. split; [done|].
    destruct (Hstep i a st Ea Hst p n n' c c' Hn Hk Hn' Hk') as [-> |[H|(sel & x & Hsel & Hx & Hbr)]]; [|by destruct Hp|].
    + destruct Hor as [H|(sel & x & j & s & Hj & H)]; [by left|right; exists sel, x, j, s]. split; [lia|exact H].
    + right. exists sel, x, i, a. split; [lia|]. auto.
Qed.
Print Assumptions C04_old_or_new.

Definition content_at (s : fs) (p : path) : option string := match s !! p with Some n => match n_kind n with KFile c => Some c | _ => None end | None => None end.
(** /etc/conf goes from "old" to "new" in one step of many; the file system and the accept meet the hypotheses. *)
Example C04_general_nonvacuous :
  wf_tree demo_fs ∧ env_ok demo_env ∧ fresh_uuids demo_env demo_fs ∧ one_length demo_env ∧
  let l := moments demo_fs (accept demo_env demo_ub true ["/"] demo_fs) in
  (10 <? length l) = true ∧
  forallb (λ s, match content_at s ["etc"; "conf"] with Some c => String.eqb c "old" || String.eqb c "new" | None => false end) l = true ∧
  existsb (λ ab, bool_decide (content_at ab.1 ["etc"; "conf"] = Some "old" ∧ content_at ab.2 ["etc"; "conf"] = Some "new")) (zip l (tail l)) = true.
Proof.
  split; [apply wf_treeb_spec; vm_compute; reflexivity|]. split; [exact demo_env_ok|]. split; [exact demo_fresh|]. split; [intros ? ? ? ?; reflexivity|]. vm_compute. done.
Qed.
