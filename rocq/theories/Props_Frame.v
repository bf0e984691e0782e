(** * C02 for every sandbox and every selection: what each step of an accept may touch. *)
From Verif Require Export Props_Atomic.

(** ** Why a path may change *)
(** [p] is touched in state [a], and nothing is there afterwards ([gone]) or not. *)
Inductive reason (e : env) (cs : list change) (a : fs) (p : path) (gone : Prop) : Prop :=
  (** It is what a selected removal names. *)
  | R_removed x s : x ∈ cs → c_op x = ORemove → c_source x = Some s → lookup_l a (d_path s) = Ok p → gone → reason e cs a p gone
  (** It is, or lies below, the old place of a selected rename. *)
  | R_moved x s q : x ∈ cs → c_op x = ORename → c_source x = Some s → lookup_l a (d_path s) = Ok q → under q p = true → gone → reason e cs a p gone
  (** It is, or lies below, a name that accept makes up. *)
  | R_made_up q y : made_up e y → under (q ++ [y]) p = true → reason e cs a p gone
  (** It is the destination of a selected change. *)
  | R_set x t : x ∈ cs → c_op x = OSet t → lookup_l a (c_dest x) = Ok p → reason e cs a p gone
  (** It is, or lies below, the new place of a selected rename. *)
  | R_renamed x q : x ∈ cs → c_op x = ORename → lookup_l a (c_dest x) = Ok q → under q p = true → reason e cs a p gone
  (** It is, or lies below, what the sandbox stages for a selected change. *)
  | R_staged x d q : x ∈ cs → c_staged x = Some d → lookup_l a (d_path d) = Ok q → under q p = true → gone → reason e cs a p gone.

(** ** Lookups *)
Lemma walk_follow (s : fs) (n : nat) (cur todo q : path) : walk n s false cur todo = Ok q →
  (∀ nd, s !! q = Some nd → is_klink (n_kind nd) = false) → walk n s true cur todo = Ok q.
Proof.
  revert cur todo. induction n as [n IHn] using lt_wf_ind. intros cur todo. revert cur. induction todo as [|c rest IH]; intros cur; [by rewrite !walk_nil|].
  rewrite !walk_cons. destruct (String.eqb c "" || String.eqb c "."); [by apply IH|]. destruct (String.eqb c ".."); [by apply IH|].
  destruct (s !! cur) as [d|] eqn:Ed; [|done]. destruct (is_kdir (n_kind d)); [|done].
  destruct (s !! (cur ++ [c])) as [nd|] eqn:En; [|done].
  destruct (n_kind nd) eqn:Ek; try by apply IH. destruct rest as [|y rest].
  - intros [= <-] H. specialize (H nd En). rewrite Ek in H. discriminate H.
  - destruct n as [|n']; [done|]. apply IHn. lia.
Qed.
Lemma walk_join (s : fs) (n : nat) (cur todo q : path) (x : string) : walk n s true cur todo = Ok q → is_dir_at s q → plain x →
  walk n s false cur (todo ++ [x]) = Ok (q ++ [x]).
Proof.
  revert cur todo. induction n as [n IHn] using lt_wf_ind. intros cur todo. revert cur. induction todo as [|c rest IH]; intros cur Hw Hq Hx.
  - rewrite walk_nil in Hw. injection Hw as <-. cbn [app]. rewrite walk_cons. destruct Hx as (X1 & X2 & X3).
    apply String.eqb_neq in X1, X2, X3. rewrite X1, X2, X3. cbn [orb]. destruct Hq as (d & -> & Hd). rewrite Hd. cbn [is_kdir].
    destruct (s !! (cur ++ [x])) as [nd|]; [|done]. destruct (n_kind nd); try (by rewrite walk_nil). done.
  - cbn [app]. rewrite walk_cons in Hw. rewrite walk_cons.
    destruct (String.eqb c "" || String.eqb c "."); [by apply IH|]. destruct (String.eqb c ".."); [by apply IH|].
    destruct (s !! cur) as [d|] eqn:Ed; [|done]. destruct (is_kdir (n_kind d)); [|done].
    destruct (s !! (cur ++ [c])) as [nd|] eqn:End.
    + assert (rest ++ [x] ≠ []) as Hne by (by destruct rest).
      destruct (n_kind nd) as [ct| |t|rd|rd| |] eqn:Ek; try (by apply IH).
      assert (match n with 0 => Err ELOOP | S n' => walk n' s true (if is_abs t then [] else cur) (split_on "/" t ++ rest) end = Ok q) as Hw' by (by destruct rest).
      destruct (rest ++ [x]) as [|y l] eqn:El; [done|]. rewrite <-El. destruct n as [|n']; [done|]. rewrite app_assoc. by apply (IHn n' ltac:(lia)).
    + destruct rest as [|y rest]; [|done]. injection Hw as <-. destruct Hq as (m & Hm & _). congruence.
Qed.
Lemma walk_stem (s : fs) (n : nat) (fol : bool) (cur a b q : path) (x : string) : tiered s → is_Some (s !! cur) →
  walk n s fol cur (a ++ x :: b) = Ok q → is_Some (s !! q) → ∃ q', walk n s false cur a = Ok q' ∧ is_Some (s !! q').
Proof.
  intros Ht. revert cur a. induction n as [n IHn] using lt_wf_ind. intros cur a. revert cur. induction a as [|c a IH]; intros cur Hcur Hw Hq.
  { rewrite walk_nil. by exists cur. }
  cbn [app] in Hw. rewrite walk_cons in Hw. rewrite walk_cons.
  destruct (String.eqb c "" || String.eqb c "."); [by apply IH|].
  destruct (String.eqb c "..").
  { apply IH; [|done|done]. destruct Hcur as [k Hk]. destruct (path_snoc_case cur) as [-> |(r & y & ->)]; [by exists k|].
    rewrite removelast_snoc. destruct (proj2 Ht r y k Hk) as (d & Hd & _). by exists d. }
  destruct (s !! cur) as [d|] eqn:Ed; [|done]. destruct (is_kdir (n_kind d)); [|done].
  destruct (s !! (cur ++ [c])) as [nd|] eqn:End.
  - assert (∀ Q : Prop, (is_klink (n_kind nd) = false → walk n s fol (cur ++ [c]) (a ++ x :: b) = Ok q → Q) → (∀ t, n_kind nd = KLink t → Q) → Q) as Hcase.
    { intros Q H1 H2. destruct (n_kind nd) eqn:Ek; try (by apply H1). by eapply H2. }
    apply Hcase.
    + intros Hnl Hw'. destruct (IH (cur ++ [c])) as (q' & Hq' & Hs); [by exists nd|done|done|]. exists q'. split; [|done]. destruct (n_kind nd); done.
    + intros t Ek. rewrite Ek in *. destruct a as [|c' a]; [exists (cur ++ [c]); split; [done|by exists nd]|].
      cbn [app] in Hw. destruct n as [|n]; [done|].
      destruct (IHn n ltac:(lia) (if is_abs t then [] else cur) (split_on "/" t ++ c' :: a)) as (q' & Hq' & Hs).
      * destruct (is_abs t); [|by exists d]. destruct Ht as [(r0 & Hr & _) _]. by exists r0.
      * by rewrite <-app_assoc.
      * done.
      * by exists q'.
  - destruct a as [|c' r]; discriminate Hw.
Qed.

(** ** The steps *)
Section steps.
  Context (e : env) (cs : list change).
  Definition asked (a b : fs) : Prop := ∀ p, b !! p ≠ a !! p → reason e cs a p (b !! p = None).
  Definition neat (s : fs) : Prop := tidy e s ∧ ∀ p x n, s !! (p ++ [x]) = Some n → plain x.
  #[local] Notation sw m := (stepwise asked neat m (λ _, neat)).

  Lemma fr_ret {A : Type} (P : fs → Prop) (a : A) : stepwise asked P (ret_ a) (λ _, P).
  Proof. intros s Hs. split; [exact I|]. split; [reflexivity|]. intros ? _. exact Hs. Qed.
  Lemma fr_throw {A : Type} (P : fs → Prop) (er : err) : stepwise asked P (throw er : M A) (λ _, P).
  Proof. intros s Hs. split; [exact I|]. split; [reflexivity|]. intros a Ha. inversion Ha. Qed.
  Lemma fr_get {A : Type} (P : fs → Prop) (r : fs → res A) : stepwise asked P (get_ r) (λ _, P).
  Proof. intros s Hs. split; [exact I|]. split; [reflexivity|]. intros ? _. exact Hs. Qed.
  (** With what was read. *)
  Lemma fr_read {A : Type} (P : fs → Prop) (r : fs → res A) : stepwise asked P (get_ r) (λ a s, P s ∧ r s = Ok a).
  Proof. intros s Hs. split; [exact I|]. split; [reflexivity|]. intros ? H. by split. Qed.
  Lemma fr_then {A B : Type} (P : fs → Prop) (m : M A) (k : A → M B) : stepwise asked P m (λ _, P) → (∀ a, stepwise asked P (k a) (λ _, P)) →
    stepwise asked P (bind_ m k) (λ _, P).
  Proof. intros Hm Hk. exact (sw_bind asked P m k (λ _, P) (λ _, P) Hm Hk). Qed.
  Lemma fr_for {A : Type} (P : fs → Prop) (l : list A) (g : A → M unit) : (∀ x, x ∈ l → stepwise asked P (g x) (λ _, P)) → stepwise asked P (for_ l g) (λ _, P).
  Proof.
    induction l as [|x l IH]; intros H; cbn [for_]; [apply fr_ret|].
    apply fr_then; [apply H; left|]. intros _. apply IH. intros y Hy. apply H. by right.
  Qed.
  (** A loop and the staged paths it collects. *)
  Lemma fr_accum {A : Type} (P : fs → Prop) (F : path → Prop) (l : list A) (g : A → M (nat * list path)) :
    (∀ x, x ∈ l → stepwise asked P (g x) (λ r s, P s ∧ ∀ p, p ∈ r.2 → F p)) →
    stepwise asked P (accum l g) (λ r s, P s ∧ ∀ p, p ∈ r.2 → F p).
  Proof.
    induction l as [|x l IH]; intros H; cbn [accum].
    - intros s Hs. split; [exact I|]. split; [reflexivity|]. intros a [= <-]. split; [exact Hs|]. intros p Hp. by apply elem_of_nil in Hp.
    - refine (sw_bind _ _ _ _ (λ r s, P s ∧ ∀ p, p ∈ r.2 → F p) _ _ _); [apply H; left|]. intros r s [Hs Hr].
      refine (sw_bind _ P _ _ (λ r s, P s ∧ ∀ p, p ∈ r.2 → F p) (λ r s, P s ∧ ∀ p, p ∈ r.2 → F p) _ _ s Hs).
      + apply IH. intros y Hy. apply H. by right.
      + intros r' s' [Hs' Hr']. split; [exact I|]. split; [reflexivity|]. intros a [= <-]. split; [exact Hs'|].
        cbn [snd]. intros p Hp. apply elem_of_app in Hp as [Hp|Hp]; auto.
  Qed.
  Lemma fr_step (P Q : fs → Prop) (m : M unit) : (∀ s, P s → (∃ er, m s = fail_ s er) ∨ ∃ s', m s = emit s' ∧ asked s s' ∧ Q s') → stepwise asked P m (λ _, Q).
  Proof.
    intros H s Hs. destruct (H s Hs) as [[er ->]|(s' & -> & Hf & Hs')]; cbn.
    - split; [exact I|]. split; [reflexivity|]. intros a Ha. inversion Ha.
    - split; [by split|]. split; [reflexivity|]. intros _ _. exact Hs'.
  Qed.
  (** One path, deleted or written. *)
  Lemma asked_delete (s : fs) (q : path) : reason e cs s q True → asked s (delete q s).
  Proof.
    intros H p Hp. destruct (decide (q = p)) as [<- |Hne]; [|by rewrite lookup_delete_ne in Hp]. rewrite lookup_delete. 
    destruct H; [by eapply R_removed|by eapply R_moved|by eapply R_made_up|by eapply R_set|by eapply R_renamed|by eapply R_staged].
  Qed.
  Lemma asked_insert (s : fs) (q : path) (n : node) : reason e cs s q False → asked s (<[q := n]> s).
  Proof.
    intros H p Hp. destruct (decide (q = p)) as [<- |Hne]; [|by rewrite lookup_insert_ne in Hp].
    destruct H; [done|done|by eapply R_made_up|by eapply R_set|by eapply R_renamed|done].
  Qed.
  Lemma neat_sub (s s' : fs) : neat s → s' ⊆ s → tidy e s' → neat s'.
  Proof. intros [_ Hp] Hsub Ht. split; [exact Ht|]. intros p x n Hn. apply (Hp p x n). by eapply lookup_weaken. Qed.
  Lemma neat_same (s : fs) (q : path) (n n' : node) : neat s → s !! q = Some n → n_kind n' = n_kind n → neat (<[q := n']> s).
  Proof.
    intros [Ht Hp] Hq Hk. split; [by eapply tidy_same|]. intros p x m Hm. destruct (decide (q = p ++ [x])) as [-> |Hne]; [by eapply Hp|].
    rewrite lookup_insert_ne in Hm by done. by eapply Hp.
  Qed.
  Lemma neat_new (s : fs) (d : path) (x : string) (n : node) : neat s → is_dir_at s d → s !! (d ++ [x]) = None → plain x → ¬ temp_name e x → neat (<[d ++ [x] := n]> s).
  Proof.
    intros [Ht Hp] Hd Hn Hx Htx. split; [by apply tidy_new|]. intros p y m Hm. destruct (decide (d ++ [x] = p ++ [y])) as [E|Hne]; [by apply app_inj_tail in E as [_ <-]|].
    rewrite lookup_insert_ne in Hm by done. by eapply Hp.
  Qed.

  (** [P] is kept by whatever only removes. *)
  Definition shrinkable (P : fs → Prop) : Prop := (∀ s, P s → neat s) ∧ ∀ s s', P s → s' ⊆ s → neat s' → P s'.
  Lemma fr_unlink_in (P : fs → Prop) (p : path) : shrinkable P → (∀ s q, P s → lookup_l s p = Ok q → is_Some (s !! q) → reason e cs s q True) →
    stepwise asked P (sys_unlink p) (λ _, P).
  Proof.
    intros [Hin Hsub] Hr. apply fr_step. intros s Hs. pose proof (Hin s Hs) as Hneat. unfold sys_unlink. destruct (lookup_l s p) as [q|er] eqn:El; [|left; by eexists].
    destruct (s !! q) as [n|] eqn:En; [|left; by eexists]. destruct (is_kdir (n_kind n)) eqn:Ek; [left; by eexists|].
    right. eexists. split; [reflexivity|]. destruct (tiered_nondir s q n (proj1 (proj1 Hneat)) En Ek) as [Hq Hb].
    split; [apply asked_delete, (Hr s q Hs El); by exists n|]. apply (Hsub s); [exact Hs|apply delete_subseteq|].
    eapply neat_sub; [exact Hneat|apply delete_subseteq|]. apply tidy_delete; [apply Hneat|done|done].
  Qed.
  Lemma fr_rmdir_in (P : fs → Prop) (p : path) : shrinkable P → (∀ s q, P s → lookup_l s p = Ok q → is_Some (s !! q) → reason e cs s q True) →
    stepwise asked P (sys_rmdir p) (λ _, P).
  Proof.
    intros [Hin Hsub] Hr. apply fr_step. intros s Hs. pose proof (Hin s Hs) as Hneat. unfold sys_rmdir. destruct (lookup_l s p) as [q|er] eqn:El; [|left; by eexists].
    destruct (s !! q) as [n|] eqn:En; [|left; by eexists]. destruct (is_kdir (n_kind n)); [|left; by eexists].
    destruct q as [|x q]; [left; by eexists|]. case_decide; [|left; by eexists].
    destruct (below s (x :: q)) eqn:Eb; [|left; by eexists].
    right. eexists. split; [reflexivity|]. split; [apply asked_delete, (Hr s _ Hs El); by exists n|]. apply (Hsub s); [exact Hs|apply delete_subseteq|].
    eapply neat_sub; [exact Hneat|apply delete_subseteq|]. by apply tidy_delete; [apply Hneat|..].
  Qed.
  Lemma neat_shrinkable : shrinkable neat.
  Proof. split; [done|]. by intros. Qed.
  Lemma fr_unlink (p : path) : (∀ s q, lookup_l s p = Ok q → reason e cs s q True) → sw (sys_unlink p).
  Proof. intros Hr. apply fr_unlink_in; [exact neat_shrinkable|]. intros s q _ Hl _. by apply Hr. Qed.
  Lemma fr_rmdir (p : path) : (∀ s q, lookup_l s p = Ok q → reason e cs s q True) → sw (sys_rmdir p).
  Proof. intros Hr. apply fr_rmdir_in; [exact neat_shrinkable|]. intros s q _ Hl _. by apply Hr. Qed.
  Lemma fr_lchown (p : path) (u g : N) : (∀ s q, lookup_l s p = Ok q → reason e cs s q False) → sw (sys_lchown p u g).
  Proof.
    intros Hr. apply fr_step. intros s Hs. unfold sys_lchown. destruct (lookup_l s p) as [q|er] eqn:El; [|left; by eexists].
    destruct (s !! q) as [n|] eqn:En; [|left; by eexists]. right. eexists. split; [reflexivity|]. split; [by apply asked_insert, Hr|by eapply neat_same].
  Qed.
  Lemma fr_lchmod (p : path) (m : N) : (∀ s q, lookup_l s p = Ok q → reason e cs s q False) → sw (sys_lchmod p m).
  Proof.
    intros Hr. apply fr_step. intros s Hs. unfold sys_lchmod. destruct (lookup_l s p) as [q|er] eqn:El; [|left; by eexists].
    destruct (s !! q) as [n|] eqn:En; [|left; by eexists]. destruct (is_klink (n_kind n)); [left; by eexists|].
    right. eexists. split; [reflexivity|]. split; [by apply asked_insert, Hr|by eapply neat_same].
  Qed.
  Lemma fr_set_permissions (p : path) (d : details) : (∀ s q, lookup_l s p = Ok q → reason e cs s q False) → sw (set_permissions p d).
  Proof.
    intros Hr. unfold set_permissions. apply fr_then; [by apply fr_lchown|]. intros _.
    destruct (N.eqb (N.land (d_mode d) S_IFMT) S_IFLNK); [apply fr_ret|by apply fr_lchmod].
  Qed.
  Lemma fr_mkdir (um : N) (p : path) (x : string) : (∀ s q, lookup_l s (p ++ [x]) = Ok q → reason e cs s q False) → plain x → ¬ temp_name e x → sw (sys_mkdir um (p ++ [x])).
  Proof.
    intros Hr Hx Ht. apply fr_step. intros s Hs. unfold sys_mkdir. destruct (lookup_l s (p ++ [x])) as [q|er] eqn:El; [|left; by eexists].
    destruct (s !! q) as [n|] eqn:En; [left; by eexists|]. right. eexists. split; [reflexivity|]. split; [by apply asked_insert, Hr|].
    destruct (lookup_l_last s p x q Hx El) as [d ->]. destruct (tiered_lookup s false _ _ (proj1 (proj1 Hs)) El En) as (d' & y & E & Hd).
    apply app_inj_tail in E as [<- <-]. by apply neat_new.
  Qed.
  Lemma fr_symlink (t : string) (p : path) (x : string) : (∀ s q, lookup_l s (p ++ [x]) = Ok q → reason e cs s q False) → plain x → ¬ temp_name e x → sw (sys_symlink t (p ++ [x])).
  Proof.
    intros Hr Hx Ht. apply fr_step. intros s Hs. unfold sys_symlink. destruct (lookup_l s (p ++ [x])) as [q|er] eqn:El; [|left; by eexists].
    destruct (s !! q) as [n|] eqn:En; [left; by eexists|]. right. eexists. split; [reflexivity|]. split; [by apply asked_insert, Hr|].
    destruct (lookup_l_last s p x q Hx El) as [d ->]. destruct (tiered_lookup s false _ _ (proj1 (proj1 Hs)) El En) as (d' & y & E & Hd).
    apply app_inj_tail in E as [<- <-]. by apply neat_new.
  Qed.

  Lemma reason_weaken (s : fs) (p : path) (g h : Prop) : (g → h) → reason e cs s p g → reason e cs s p h.
  Proof. intros Hgh [ | | | | | ]; [eapply R_removed|eapply R_moved|eapply R_made_up|eapply R_set|eapply R_renamed|eapply R_staged]; eauto. Qed.
  Lemma rename_asked (s : fs) (o n : path) (x : string) : tiered s → (∀ p y m, s !! (p ++ [y]) = Some m → plain y) → plain x → ¬ temp_name e x →
    (∀ p y co, lookup_l s o = Ok co → is_Some (s !! co) → is_Some (s !! (p ++ [y])) → p ++ [y] ≠ co → ¬ temp_name e y) →
    (∀ co p, lookup_l s o = Ok co → is_Some (s !! co) → under co p = true → reason e cs s p True) →
    (∀ co on cn p, lookup_l s o = Ok co → s !! co = Some on → lookup_l s (n ++ [x]) = Ok cn → under cn p = true → is_kdir (n_kind on) = true ∨ p = cn → reason e cs s p False) →
    (∀ co, lookup_l s o = Ok co → lookup_l s (n ++ [x]) = Ok co → neat s) →
    (∃ er, sys_rename o (n ++ [x]) s = fail_ s er) ∨ ∃ s', sys_rename o (n ++ [x]) s = emit s' ∧ asked s s' ∧ neat s'.
  Proof.
    intros Ht Hpl Hx Htx Hnames Hold Hnew Hsame. unfold sys_rename.
    destruct (lookup_l s o) as [co|er] eqn:Eo; [|left; by eexists].
    destruct (lookup_l s (n ++ [x])) as [cn|er] eqn:El; [|left; by eexists].
    destruct (lookup_l_last s n x cn Hx El) as [d ->].
    destruct (s !! co) as [on|] eqn:Eon; [|left; by eexists].
    case_decide as Ed; [right; eexists; split; [reflexivity|]; split; [by intros p Hp|apply (Hsame co); [done|by rewrite Ed]]|].
    destruct (under co (d ++ [x])) eqn:E1; [left; by eexists|].
    destruct (under (d ++ [x]) co) eqn:E2; [left; by eexists|].
    destruct (negb (N.eqb (parent_dev s co) (parent_dev s (d ++ [x])))); [left; by eexists|].
    destruct (negb (N.eqb (n_dev on) (parent_dev s co))); [left; by eexists|].
    assert (is_dir_at s d) as Hd.
    { destruct (s !! (d ++ [x])) as [nn|] eqn:En; [by eapply (proj2 Ht)|].
      destruct (tiered_lookup s false _ _ Ht El En) as (d' & y & E & Hd). by apply app_inj_tail in E as [<- _]. }
    assert (∀ p y m, moved s co (d ++ [x]) !! (p ++ [y]) = Some m → plain y ∧ ¬ temp_name e y) as Hm.
    { intros p y m Hm. rewrite lookup_moved in Hm by done.
      destruct (path_strip (d ++ [x]) (p ++ [y])) as [z|] eqn:Ez.
      - apply path_strip_spec in Ez. destruct (path_snoc_case z) as [-> |(z' & w & ->)].
        + rewrite app_nil_r in Ez. apply app_inj_tail in Ez as [_ ->]. by split.
        + rewrite app_assoc in Ez. apply app_inj_tail in Ez as [_ ->]. rewrite app_assoc in Hm. split; [by eapply Hpl|].
          apply (Hnames (co ++ z') w co eq_refl); [by exists on|by exists m|]. intros E. apply (f_equal length) in E. rewrite !app_length in E. cbn in E. lia.
      - destruct (under co (p ++ [y])) eqn:Eu; [discriminate Hm|]. split; [by eapply Hpl|].
        apply (Hnames p y co eq_refl); [by exists on|by exists m|]. intros E. rewrite E, under_refl in Eu. discriminate Eu. }
    assert (neat (moved s co (d ++ [x]))) as Hneat.
    { split; [split; [by apply tiered_moved|]|].
      - intros p y [m Hy]. by apply (Hm p y m).
      - intros p y m Hy. by apply (Hm p y m). }
    assert ((is_kdir (n_kind on) = false → below s (d ++ [x]) = []) → asked s (moved s co (d ++ [x]))) as Hask.
    { intros Hb p Hp. rewrite lookup_moved in Hp |- * by done. destruct (path_strip (d ++ [x]) p) as [z|] eqn:Ez.
      - apply path_strip_spec in Ez as ->. destruct (is_kdir (n_kind on)) eqn:Ekd.
        { eapply reason_weaken; [|apply (Hnew co on (d ++ [x])); [done|done|done|apply under_app|by left]]. done. }
        destruct z as [|w z].
        { eapply reason_weaken; [|apply (Hnew co on (d ++ [x])); [done|done|done|apply under_app|right; by rewrite app_nil_r]]. done. }
        specialize (Hb eq_refl). rewrite below_nil in Hb. rewrite (Hb (w :: z)) in Hp by done.
        destruct (tiered_nondir s co on Ht Eon Ekd) as [_ Hb']. rewrite below_nil in Hb'. rewrite (Hb' (w :: z)) in Hp by done. done.
      - destruct (under co p) eqn:Eu; [|done]. eapply reason_weaken; [|apply (Hold co); [done|by exists on|done]]. done. }
    destruct (s !! (d ++ [x])) as [nn|] eqn:En.
    - destruct (is_kdir (n_kind on)).
      + destruct (is_kdir (n_kind nn)); [|left; by eexists].
        destruct (below s (d ++ [x])) eqn:Eb; [|left; by eexists].
        destruct (N.eqb (n_dev nn) (parent_dev s (d ++ [x]))); [|left; by eexists].
        right; eexists; split; [reflexivity|]. split; [by apply Hask|exact Hneat].
      + destruct (is_kdir (n_kind nn)) eqn:Ek; [left; by eexists|]. right; eexists; split; [reflexivity|]. split; [|exact Hneat].
        apply Hask. intros _. by destruct (tiered_nondir s _ nn Ht En Ek).
    - right; eexists; split; [reflexivity|]. split; [|exact Hneat]. apply Hask. intros _. by apply tiered_none.
  Qed.
  Lemma fr_rename (o n : path) (x : string) : plain x → ¬ temp_name e x →
    (∀ s co p, lookup_l s o = Ok co → under co p = true → reason e cs s p True) →
    (∀ s cn p, lookup_l s (n ++ [x]) = Ok cn → under cn p = true → reason e cs s p False) → sw (sys_rename o (n ++ [x])).
  Proof.
    intros Hx Ht Ho Hn. apply fr_step. intros s Hs. apply rename_asked; [apply Hs|apply Hs|exact Hx|exact Ht| | |intros co on cn p _ _ Hl Hu _; by apply (Hn s cn)|by intros].
    - intros p y co _ _ Hy _. by apply (proj2 (proj1 Hs) p y).
    - intros co p Hl _. by apply Ho.
  Qed.
  Lemma under_made_up (s : fs) (p q : path) (x : string) (o : path) : plain x → made_up e x → lookup_l s (o ++ [x]) = Ok q → under q p = true → ∀ g, reason e cs s p g.
  Proof. intros Hx Hm Hl Hu g. destruct (lookup_l_last s o x q Hx Hl) as [d ->]. by apply (R_made_up e cs s p g d x). Qed.

  (** Copying to a temporary name, then renaming. *)
  Definition placed (x : string) (s' : fs) : Prop := ∃ s d m, neat s ∧ is_dir_at s d ∧ s !! (d ++ [x]) = None ∧ is_kdir (n_kind m) = false ∧ s' = <[d ++ [x] := m]> s.
  Lemma asked_off (q : path) (x : string) (a b : fs) : made_up e x → off (q ++ [x]) a b → asked a b.
  Proof.
    intros Hx H p Hp. destruct (decide (p = q ++ [x])) as [-> |Hne]; [|by rewrite (H p Hne) in Hp].
    apply (R_made_up e cs a _ _ q x Hx), under_refl.
  Qed.
  Lemma chain_asked (q : path) (x : string) (s a : fs) (l : list fs) : made_up e x → off (q ++ [x]) s a → Forall (off (q ++ [x]) s) l → chain asked a l.
  Proof.
    intros Hx. revert a. induction l as [|b l IH]; intros a Ha Hl; [exact I|]. apply Forall_cons in Hl as [Hb Hl]. split; [|by apply IH].
    apply (asked_off q x a b Hx). intros p Hp. by rewrite (Hb p Hp), (Ha p Hp).
  Qed.
  Lemma fr_copy (um : N) (src p : path) (x : string) : plain x → temp_name e x → stepwise asked neat (sys_copy um src (p ++ [x])) (λ _, placed x).
  Proof.
    intros Hx Ht s Hs. unfold sys_copy.
    assert (made_up e x) as Hmu by (destruct Ht as [i Hi]; exists i; by left).
    assert (∀ er : err, chain asked s (o_trace (fail_ (A := unit) s er)) ∧ final s (o_trace (fail_ (A := unit) s er)) = o_fs (fail_ (A := unit) s er) ∧
      ∀ a, o_res (fail_ (A := unit) s er) = Ok a → placed x (o_fs (fail_ (A := unit) s er))) as Hfail.
    { intros er. cbn. split; [exact I|]. split; [reflexivity|]. intros a Ha. inversion Ha. }
    destruct (stat s src) as [sn|er] eqn:Est; [|apply Hfail].
    destruct (n_kind sn) as [content| | | | | |] eqn:Ek; try apply Hfail.
    destruct (lookup_f s (p ++ [x])) as [q|er] eqn:El; [|apply Hfail].
    assert (∃ d, q = d ++ [x]) as [d ->].
    { unfold lookup_f in El. destruct (walk_last _ _ _ _ _ _ _ Hx El) as [|[_ (d & nd & t & Hd & Hk)]]; [assumption|].
      destruct Hs as [[_ H2] _]. destruct (H2 d x ltac:(by exists nd) Ht). }
    destruct (s !! (d ++ [x])) as [dn|] eqn:Edn; [destruct (proj2 (proj1 Hs) d x ltac:(by exists dn) Ht)|].
    assert (is_dir_at s d) as Hd.
    { destruct (tiered_lookup s true _ _ (proj1 (proj1 Hs)) El Edn) as (d' & y & E & Hd). by apply app_inj_tail in E as [<- _]. }
    cbn [o_trace o_fs o_res].
    assert (∀ m, off (d ++ [x]) s (<[d ++ [x] := m]> s)) as Hoff by (intros m r Hr; by rewrite lookup_insert_ne by congruence).
    split; [|split].
    - apply (chain_asked d x s); [exact Hmu|by intros r _|]. constructor; [apply Hoff|]. constructor; [apply Hoff|]. apply Forall_fmap, Forall_true. intros c. apply Hoff.
    - cbn [final]. by apply (final_prefixes (d ++ [x]) _ s _ content (λ z, z)).
    - intros _ _. exists s, d. eexists. split; [exact Hs|]. split; [exact Hd|]. split; [exact Edn|]. split; [|reflexivity]. reflexivity.
  Qed.
  Lemma fr_put (q : path) (y z : string) : (∀ s r, lookup_l s (q ++ [y]) = Ok r → reason e cs s r False) →
    plain y → ¬ temp_name e y → plain z → temp_name e z → stepwise asked (placed z) (sys_rename (q ++ [z]) (q ++ [y])) (λ _, neat).
  Proof.
    intros Hr Hy Hty Hz Htz. apply fr_step. intros s' (s & d & m & Hs & Hd & Hn & Hm & ->).
    set (s' := <[d ++ [z] := m]> s).
    assert (made_up e z) as Hmu by (destruct Htz as [i Hi]; exists i; by left).
    assert (∀ co, lookup_l s' (q ++ [z]) = Ok co → is_Some (s' !! co) → co = d ++ [z]) as Hco.
    { intros co Hl [n Hn']. destruct (lookup_l_last s' q z co Hz Hl) as [d' ->]. destruct (decide (d' ++ [z] = d ++ [z])) as [->|Hne]; [done|].
      unfold s' in Hn'. rewrite lookup_insert_ne in Hn' by congruence. destruct (proj2 (proj1 Hs) d' z ltac:(by exists n) Htz). }
    assert (∀ p w k, s' !! (p ++ [w]) = Some k → p ++ [w] ≠ d ++ [z] → s !! (p ++ [w]) = Some k) as Hback.
    { intros p w k Hk Hne. unfold s' in Hk. by rewrite lookup_insert_ne in Hk by congruence. }
    apply rename_asked.
    - by apply tiered_new; [apply Hs|..].
    - intros p w k Hk. destruct (decide (p ++ [w] = d ++ [z])) as [E|Hne]; [by apply app_inj_tail in E as [_ ->]|]. by apply (proj2 Hs p w k), Hback.
    - exact Hy.
    - exact Hty.
    - intros p w co Hl Hc [k Hk] Hne. rewrite (Hco co Hl Hc) in Hne. apply (proj2 (proj1 Hs) p w). exists k. by apply Hback.
    - intros co p Hl Hc Hu. rewrite (Hco co Hl Hc) in Hu. by apply (R_made_up e cs s' p True d z).
    - intros co on cn p Hl Hon Hl' Hu [Hk| ->]; [|by apply Hr].
      rewrite (Hco co Hl ltac:(by exists on)) in Hon. unfold s' in Hon. rewrite lookup_insert in Hon. injection Hon as <-. congruence.
    - intros co Hl Hl'. destruct (lookup_l_last s' q z co Hz Hl) as [d1 ->]. destruct (lookup_l_last s' q y _ Hy Hl') as [d2 E].
      apply app_inj_tail in E as [_ <-]. by destruct Hty.
  Qed.

  (** Clean-up: the staged path, and what is below it. *)
  Section staged.
    Context (He : env_ok e) (x : change) (d : details) (Hx : x ∈ cs) (Hd : c_staged x = Some d) (s0 : fs) (Hs0 : neat s0).
    Context (q : path) (Hq : lookup_l s0 (d_path d) = Ok q).
    Definition later (s : fs) : Prop := s ⊆ s0 ∧ neat s.
    Lemma later_shrinkable : shrinkable later.
    Proof using. split; [by intros s [_ H]|]. intros s s' [H1 _] H2 H3. split; [by etrans|exact H3]. Qed.
    Lemma staged_reason (s : fs) (rest r : path) : later s → lookup_l s0 (d_path d ++ rest) = Ok (q ++ rest) →
      lookup_l s (d_path d ++ rest) = Ok r → is_Some (s !! r) → r = q ++ rest ∧ reason e cs s r True.
    Proof using Hd Hq Hx.
      intros [Hsub Hs] H0 Hl Hr. pose proof (walk_mono s0 s Hsub _ _ _ _ _ Hl Hr) as Hl'. unfold lookup_l in H0. rewrite H0 in Hl'. injection Hl' as <-.
      split; [done|]. apply (R_staged e cs s _ True x d q Hx Hd); [|apply under_app|exact I].
      destruct rest as [|y rest]; [by rewrite !app_nil_r in Hl|].
      assert (is_Some (s !! [])) as Hroot by (destruct Hs as [[[(n & Hn & _) _] _] _]; by exists n).
      destruct (walk_stem s _ _ _ _ _ _ _ (proj1 (proj1 Hs)) Hroot Hl Hr) as (q' & Hq' & Hsq).
      pose proof (walk_mono s0 s Hsub _ _ _ _ _ Hq' Hsq) as Hq0. unfold lookup_l in *. congruence.
    Qed.
    Lemma fr_rmdir_recursive (fuel : nat) (rest : path) : lookup_l s0 (d_path d ++ rest) = Ok (q ++ rest) → is_dir_at s0 (q ++ rest) →
      stepwise asked later (rmdir_recursive fuel (e_ord e) (d_path d ++ rest)) (λ _, later).
    Proof using Hd Hq Hx He Hs0.
      revert rest. induction fuel as [|n IH]; intros rest Hl Hdir; cbn [rmdir_recursive]; [apply fr_throw|].
      assert (lookup_f s0 (d_path d ++ rest) = Ok (q ++ rest)) as Hf.
      { unfold lookup_f. apply walk_follow; [exact Hl|]. intros nd Hnd. destruct Hdir as (nd' & Hnd' & Hk). rewrite Hnd in Hnd'. injection Hnd' as <-. by rewrite Hk. }
      apply fr_then; [apply fr_get|]. intros root.
      refine (sw_bind _ _ _ _ (λ names s, later s ∧ readdir s (d_path d ++ rest) = Ok names) _ _ _); [apply fr_read|]. intros names s [Hs Hnames].
      assert (∀ y, y ∈ names → plain y) as Hplain.
      { intros y Hy. unfold readdir in Hnames. destruct (lookup_f s (d_path d ++ rest)) as [c|er] eqn:Ec; cbn [rbind] in Hnames; [|inversion Hnames].
        destruct (s !! c) as [nc|] eqn:Enc; [|inversion Hnames]. destruct (is_kdir (n_kind nc)); [|inversion Hnames]. injection Hnames as <-.
        apply elem_of_list_omap in Hy as (k & Hk & Hky). destruct (path_strip c k) as [[|y' [|]]|] eqn:Es; try discriminate Hky. injection Hky as ->.
        apply path_strip_spec in Es as ->. unfold keys in Hk. apply elem_of_list_fmap in Hk as ([k1 m] & Ek1 & Hk). apply elem_of_map_to_list in Hk. cbn [fst] in Ek1. subst k1.
        by apply (proj2 (proj2 Hs) c y m). }
      revert s Hs Hnames. assert (stepwise asked later (for_ (e_ord e ((λ y, (d_path d ++ rest) ++ [y]) <$> names)) (λ ep, st <-- get_ (λ f, lstat f ep) ;;
          if negb (N.eqb (n_dev st) (n_dev root)) then throw (EApp "entry is on a different device") else if is_kdir (n_kind st) then rmdir_recursive n (e_ord e) ep else sys_unlink ep) ;;;
          sys_rmdir (d_path d ++ rest)) (λ _, later)) as H; [|by intros s Hs _; apply H].
      apply fr_then.
      2:{ intros _. apply fr_rmdir_in; [exact later_shrinkable|]. intros s r Hs Hlr Hr. exact (proj2 (staged_reason s rest r Hs Hl Hlr Hr)). }
      apply fr_for. intros ep Hep. rewrite (He _) in Hep. apply elem_of_list_fmap in Hep as (y & -> & Hy). rewrite <-app_assoc.
      assert (lookup_l s0 (d_path d ++ rest ++ [y]) = Ok (q ++ rest ++ [y])) as Hly.
      { rewrite !app_assoc. unfold lookup_l. apply walk_join; [exact Hf|exact Hdir|by apply Hplain]. }
      refine (sw_bind _ _ _ _ (λ st s, later s ∧ lstat s (d_path d ++ rest ++ [y]) = Ok st) _ _ _); [apply fr_read|]. intros st s [Hs Hst].
      destruct (negb (N.eqb (n_dev st) (n_dev root))); [by apply (fr_throw later)|].
      destruct (is_kdir (n_kind st)) eqn:Ek.
      - apply IH; [exact Hly| |exact Hs]. destruct (lstat_mono s0 s _ st (proj1 Hs) Hst) as (r & Hr0 & _ & Hsr). rewrite Hly in Hr0. injection Hr0 as <-.
        exists st. split; [by eapply lookup_weaken; [|apply Hs]|by apply is_kdir_true].
      - apply (fr_unlink_in later); [exact later_shrinkable| |exact Hs]. intros s' r Hs' Hlr Hr. exact (proj2 (staged_reason s' (rest ++ [y]) r Hs' Hly Hlr Hr)).
    Qed.
  End staged.
  Lemma fr_clean_one (x : change) (d : details) : env_ok e → x ∈ cs → c_staged x = Some d → sw (clean_one e (d_path d)).
  Proof.
    intros He Hx Hd s0 Hs0. unfold clean_one.
    refine (sw_bind asked (λ s, s = s0) _ _ (λ b s, s = s0 ∧ Ok (negb (is_symlink s (d_path d)) && is_dir s (d_path d)) = Ok b) (λ _, neat) _ _ s0 eq_refl); [apply fr_read|].
    intros b s [-> [= <-]]. destruct (is_symlink s0 (d_path d)) eqn:Esym; cbn [negb andb].
    { apply fr_unlink; [|exact Hs0]. intros s q Hl. by apply (R_staged e cs s q True x d q), I; [..|apply under_refl]. }
    destruct (is_dir s0 (d_path d)) eqn:Edir.
    2:{ apply fr_unlink; [|exact Hs0]. intros s q Hl. by apply (R_staged e cs s q True x d q), I; [..|apply under_refl]. }
    unfold is_dir, stat, lookup_f in Edir. destruct (walk max_links s0 true [] (d_path d)) as [q'|er] eqn:Ef; cbn [rbind] in Edir; [|discriminate Edir].
    destruct (s0 !! q') as [n'|] eqn:En'; [|discriminate Edir].
    destruct (walk_stat_lstat _ _ _ _ _ Ef ltac:(by exists n')) as (q & Hl & [n Hn]).
    unfold is_symlink, lstat, lookup_l in Esym. rewrite Hl in Esym. cbn [rbind] in Esym. rewrite Hn in Esym.
    assert (walk max_links s0 true [] (d_path d) = Ok q) as Hq by (apply walk_follow; [exact Hl|]; intros nd Hnd; congruence).
    assert (q' = q) as -> by congruence. assert (n' = n) as -> by congruence.
    unfold rmdir_rec. pose proof (fr_rmdir_recursive He x d Hx Hd s0 Hs0 q Hl (S (tree_depth s0)) []) as H. rewrite !app_nil_r in H.
    destruct (H Hl ltac:(exists n; split; [exact Hn|by apply is_kdir_true]) s0 ltac:(split; [reflexivity|exact Hs0])) as (H1 & H2 & H3).
    split; [exact H1|]. split; [exact H2|]. intros a Ha. apply (H3 a Ha).
  Qed.
End steps.

Section pass.
  Context (e : env) (cs : list change) (He : env_ok e).
  Context (Hne : ∀ i, e_uuid e 3 i ≠ "") (Hsl : ∀ i, contains "/" (e_uuid e 3 i) = false) (Hlen : one_length e).
  #[local] Notation sw m := (stepwise (asked e cs) (neat e) m (λ _, neat e)).
  Definition staged_of (p : path) : Prop := ∃ x d, x ∈ cs ∧ c_staged x = Some d ∧ p = d_path d.
  Definition collects : nat * list path → fs → Prop := λ r s, neat e s ∧ ∀ p, p ∈ r.2 → staged_of p.
  Lemma fr_more {A B : Type} (m : M A) (k : A → M B) (Q : B → fs → Prop) : sw m → (∀ a, stepwise (asked e cs) (neat e) (k a) Q) → stepwise (asked e cs) (neat e) (bind_ m k) Q.
  Proof. intros Hm Hk. exact (sw_bind _ _ m k (λ _, neat e) Q Hm Hk). Qed.
  Lemma fr_collect {B : Type} (m : M (nat * list path)) (k : nat * list path → M B) (Q : B → fs → Prop) : stepwise (asked e cs) (neat e) m collects →
    (∀ r, (∀ p, p ∈ r.2 → staged_of p) → stepwise (asked e cs) (neat e) (k r) Q) → stepwise (asked e cs) (neat e) (bind_ m k) Q.
  Proof. intros Hm Hk. refine (sw_bind _ _ m k collects Q Hm _). intros r s [Hs Hr]. exact (Hk r Hr s Hs). Qed.
  Lemma fr_result (n : nat) (l : list path) : (∀ p, p ∈ l → staged_of p) → stepwise (asked e cs) (neat e) (ret_ (n, l)) collects.
  Proof. intros H s Hs. split; [exact I|]. split; [reflexivity|]. intros a [= <-]. split; [exact Hs|exact H]. Qed.
  Lemma fr_fail (er : err) : stepwise (asked e cs) (neat e) (throw er) collects.
  Proof. intros s Hs. split; [exact I|]. split; [reflexivity|]. intros a Ha. inversion Ha. Qed.
  Lemma staged_none : ∀ p, p ∈ @nil path → staged_of p.
  Proof. intros p Hp. by apply elem_of_nil in Hp. Qed.
  Lemma staged_one (x : change) (d : details) : x ∈ cs → c_staged x = Some d → ∀ p, p ∈ [d_path d] → staged_of p.
  Proof. intros Hx Hd p Hp. apply elem_of_list_singleton in Hp as ->. by exists x, d. Qed.
  Lemma staged_opt (x : change) : x ∈ cs → ∀ p, p ∈ match c_staged x with Some d => [d_path d] | None => [] end → staged_of p.
  Proof. intros Hx. destruct (c_staged x) as [d|] eqn:E; [by apply (staged_one x)|exact staged_none]. Qed.

  Lemma fr_accept_remove (x c : change) : x ∈ cs → same_change x c → stepwise (asked e cs) (neat e) (accept_remove false c) collects.
  Proof.
    intros Hin (Hop & Hst & Hdst & Hsrc). unfold accept_remove. destruct (c_op c) eqn:Eo; try apply (fr_result _ _ staged_none).
    destruct (c_source c) as [s|] eqn:Es; [|apply fr_fail].
    assert (∀ a q, lookup_l a (d_path s) = Ok q → reason e cs a q True) as Hr.
    { intros a q Hq. apply (R_removed e cs a q True x s); [exact Hin|congruence|congruence|exact Hq|exact I]. }
    apply fr_more.
    - destruct (d_is_file s || d_is_symlink s); [by apply fr_unlink|].
      destruct (d_is_dir s); [by apply fr_rmdir|apply fr_throw].
    - intros _. apply fr_result. rewrite Hst. by apply staged_opt.
  Qed.
  Lemma rename_name_made_up (p1 p2 : path) (i : nat) : made_up e (".rename-" +:+ text_name p1 +:+ "-to-" +:+ text_name p2 +:+ "-" +:+ e_uuid e 2 i).
  Proof using. exists i. right. apply ends_with_spec. exists (".rename-" +:+ text_name p1 +:+ "-to-" +:+ text_name p2). by rewrite !str_app_assoc. Qed.
  Lemma rename_name_plain (p1 p2 : path) (i : nat) : plain (".rename-" +:+ text_name p1 +:+ "-to-" +:+ text_name p2 +:+ "-" +:+ e_uuid e 2 i).
  Proof using. apply plain_long. rewrite !str_length_app. cbn. lia. Qed.
  Lemma fr_premove (i : nat) (x c : change) : x ∈ cs → same_change x c → (c_source c = None → c_tmp c = None) → sw (accept_premove false (assign_tmp e 2 i c)).
  Proof using Hlen.
    intros Hin (Hop & Hst & Hdst & Hsrc) Hnone. unfold accept_premove, assign_tmp. destruct (c_op c) eqn:Eo; destruct (c_source c) as [s|] eqn:Es;
      rewrite ?Eo, ?Es; cbn [c_op c_source c_tmp]; try apply fr_ret.
    unfold tmp_name. pose proof (rename_name_plain (d_path s) (c_dest c) i) as Hp. apply fr_rename; [exact Hp| | |].
    - rewrite !str_app_assoc. rewrite <-(str_app_assoc _ "-"). by apply rename_name_not_temp.
    - intros a co p Hl Hu. apply (R_moved e cs a p True x s co); [exact Hin|congruence|congruence|exact Hl|exact Hu|exact I].
    - intros a cn p Hl Hu. apply (under_made_up e cs a p cn _ _ Hp (rename_name_made_up _ _ _) Hl Hu).
  Qed.
  Lemma fr_accept_set (i : nat) (x c : change) : stands_for e cs x c → (c_op c ≠ ORemove → good_dest e (c_dest c)) →
    stepwise (asked e cs) (neat e) (accept_set e 2 false (i, c)) collects.
  Proof using Hne Hsl.
    intros (Hin & (Hop & Hst & Hdst & Hsrc) & Htmp) Hd. unfold accept_set. destruct (c_op c) as [t| | |er] eqn:Eo; [| | |apply fr_fail]; [|apply (fr_result _ _ staged_none)|].
    - destruct (Hd ltac:(discriminate)) as (q & y & Hq & Hy & Hnt). pose proof (comp_plain y Hy) as Hp.
      destruct (c_staged c) as [st|] eqn:Est; [|apply fr_fail]. rewrite Hq.
      assert (∀ a r (g : Prop), lookup_l a (q ++ [y]) = Ok r → reason e cs a r g) as Hr.
      { intros a r g Hl. apply (R_set e cs a r g x t); [exact Hin|congruence|]. rewrite <-Hdst, Hq. exact Hl. }
      assert (∀ p, p ∈ [d_path st] → staged_of p) as Hone by (apply (staged_one x); [exact Hin|congruence]).
      assert (∀ d, sw (set_permissions (q ++ [y]) d)) as Hperm by (intros d; apply fr_set_permissions; intros a r; apply Hr).
      destruct (d_is_file st) eqn:Ef.
      { rewrite with_extension_snoc.
        assert (temp_name e (file_stem y +:+ "." +:+ e_uuid e 3 i)) as Htn by (exists i; apply ends_with_spec; by eexists).
        assert (plain (file_stem y +:+ "." +:+ e_uuid e 3 i)) as Hpl by (apply comp_plain; by apply tmp_comp_ok).
        refine (sw_bind _ _ _ _ (λ _, placed e (file_stem y +:+ "." +:+ e_uuid e 3 i)) _ _ _); [by apply fr_copy|]. intros _.
        refine (sw_bind _ _ _ _ (λ _, neat e) _ _ _); [|intros _; apply fr_more; [apply Hperm|intros _; by apply fr_result]].
        apply (fr_put e cs q); [intros a r; apply Hr|exact Hp|exact Hnt|exact Hpl|exact Htn]. }
      destruct (d_is_symlink st).
      { apply fr_more; [apply fr_get|]. intros target. apply fr_more; [apply fr_get|]. intros old.
        apply fr_more; [destruct old; [apply fr_unlink; intros a r; apply Hr|apply fr_ret]|]. intros _.
        apply fr_more; [apply fr_symlink; [intros a r; apply Hr|exact Hp|exact Hnt]|]. intros _.
        apply fr_more; [apply Hperm|]. intros _. by apply fr_result. }
      destruct (d_is_dir st); [|apply fr_fail].
      apply fr_more; [apply fr_get|]. intros isd.
      apply fr_more; [destruct isd; [apply fr_ret|apply fr_mkdir; [intros a r; apply Hr|exact Hp|exact Hnt]]|]. intros _.
      apply fr_more; [apply Hperm|]. intros _. by apply fr_result.
    - destruct (Hd ltac:(discriminate)) as (q & y & Hq & Hy & Hnt). pose proof (comp_plain y Hy) as Hp.
      destruct (c_tmp c) as [t|] eqn:Et; [|apply fr_fail].
      destruct (Htmp eq_refl t eq_refl) as (src & j & Es & ->). rewrite Hq. apply fr_more.
      + apply fr_rename; [exact Hp|exact Hnt| |].
        * intros a co p Hl Hu. apply (under_made_up e cs a p co _ _ (rename_name_plain _ _ _) (rename_name_made_up _ _ _) Hl Hu).
        * intros a cn p Hl Hu. apply (R_renamed e cs a p False x cn); [exact Hin|congruence| |exact Hu]. rewrite <-Hdst, Hq. exact Hl.
      + intros _. apply fr_result. rewrite Hst. by apply staged_opt.
  Qed.

  Lemma fr_pass (l : list change) : (∀ c, c ∈ l → c_op c ≠ ORemove → good_dest e (c_dest c)) →
    (∀ c, c ∈ l → ∃ x, x ∈ cs ∧ same_change x c ∧ (c_source c = None → c_tmp c = None)) → sw (accept_pass e 2 false l).
  Proof using Hne Hsl Hlen He.
    intros Hl Hx. unfold accept_pass.
    apply fr_collect.
    { apply fr_accum. intros c Hc. rewrite elem_of_sort_by in Hc. destruct (Hx c Hc) as (x & Hin & Hs & _). by apply (fr_accept_remove x). }
    intros r1 Hr1. apply fr_more.
    { apply fr_for. intros c Hc. apply elem_of_imap_to in Hc as (i & c0 & Hc0 & ->). rewrite !elem_of_sort_by in Hc0.
      destruct (Hx c0 Hc0) as (x & Hin & Hs & Hnone). by apply (fr_premove i x). }
    intros _. apply fr_collect.
    { apply fr_accum. intros [i c] Hic. apply elem_of_imap_to in Hic as (i' & c' & Hc' & [= -> ->]).
      rewrite elem_of_sort_by in Hc'. apply elem_of_imap_to in Hc' as (j & c0 & Hc0 & ->). rewrite !elem_of_sort_by in Hc0.
      destruct (Hx c0 Hc0) as (x & Hin & Hsame & Hnone). pose proof (assign_tmp_fields e 2 j c0) as Hf.
      pose proof (same_change_trans _ _ _ Hsame Hf) as Hsame'. apply (fr_accept_set i' x).
      - split; [exact Hin|]. split; [exact Hsame'|]. intros Hop t Ht. destruct Hsame as (E1 & E2 & E3 & E4).
        unfold assign_tmp in Ht, Hop. destruct (c_source c0) as [src|] eqn:Es.
        + destruct (c_op c0) eqn:Eo; try (rewrite Eo in Hop; discriminate Hop). cbn [c_tmp] in Ht. injection Ht as <-. exists src, j. split; [congruence|]. congruence.
        + assert (c_tmp c0 = Some t) as Ht' by (destruct (c_op c0); exact Ht). rewrite Hnone in Ht' by done. discriminate Ht'.
      - destruct Hf as (E1 & _ & E3 & _). rewrite E1, E3. by apply Hl. }
    intros r3 Hr3. apply fr_more; [|intros _; apply fr_ret].
    unfold clean_up. apply fr_for. intros p Hp. rewrite elem_of_dedup, elem_of_sort_by in Hp.
    assert (staged_of p) as (x & d & Hin & Hd & ->) by (apply elem_of_app in Hp as [Hp|Hp]; auto). by apply (fr_clean_one e cs x d).
  Qed.
End pass.

Lemma accept_reasons (e : env) (f : fs) (ub : path) (inc : bool) (pats : list string) :
  wf_tree f → env_ok e → fresh_uuids e f → one_length e →
  chain (asked e (match selected e f ub inc pats with Ok sel => sel | Err _ => [] end)) f (o_trace (accept e ub inc pats f)) ∧
  (is_ok (selected e f ub inc pats) = false → o_trace (accept e ub inc pats f) = []).
Proof.
  intros Hwf He Hfu Hlen.
  assert (neat e f) as Hneat.
  { split; [split; [by apply wf_tiered|]|].
    - intros p x Hp [j Hj]. rewrite (fu_new e f Hfu j p x Hp) in Hj. discriminate Hj.
    - intros p x n Hn. apply comp_plain. by apply (wf_comp f Hwf p x n). }
  destruct (selected e f ub inc pats) as [sel|er] eqn:Esel.
  2:{ rewrite (accept_unlisted _ _ _ _ _ _ Esel). by split. }
  split; [|intros H; discriminate H].
  destruct sel as [|c0 sel].
  { destruct (accept_nothing _ _ _ _ _ Esel) as [-> _]. exact I. }
  destruct (accept_passes e f ub inc pats (c0 :: sel) Esel ltac:(discriminate)) as [[er Her]|(r1 & H1 & Ht & Hf & _)].
  { rewrite Her. exact I. }
  assert (stepwise (asked e (c0 :: sel)) (neat e) (accept_pass e 2 false r1.2) (λ _, neat e)) as Hsw.
  { rewrite (pass_result e 0 true _ f r1 H1).
    assert (∀ c, c ∈ c0 :: sel → c_tmp c = None ∧ (c_op c ≠ ORemove → good_dest e (c_dest c))) as Hsel.
    { intros c Hc. unfold selected in Esel. destruct (changes e f ub inc) as [all|er] eqn:Ec; cbn [rbind] in Esel; [|inversion Esel].
      injection Esel as Esel. rewrite <-Esel in Hc. unfold matching in Hc. apply elem_of_list_filter in Hc as [_ Hc]. split.
      - by destruct (listed_origin e f ub inc all He Ec c Hc) as (? & ? & ? & ? & ? & _ & _ & H & _).
      - apply (listed_good_dest e f ub inc all Hwf He Hfu Ec c Hc). }
    apply fr_pass; [exact He|apply (fu_nonempty e f Hfu)|apply (fu_slash e f Hfu)|exact Hlen| |].
    - intros c Hc Hop. destruct (proj2 (pass_list e 0 (c0 :: sel)) c Hc) as (c1 & Hc1 & Ho & _ & -> & _). apply (Hsel c1 Hc1). congruence.
    - intros c Hc. rewrite elem_of_sort_by in Hc. apply elem_of_imap_to in Hc as (j & c1 & Hc1 & ->). rewrite !elem_of_sort_by in Hc1.
      exists c1. split; [exact Hc1|]. split; [apply assign_tmp_fields|]. destruct (assign_tmp_fields e 0 j c1) as (_ & _ & _ & ->).
      intros Es. unfold assign_tmp. rewrite Es. destruct (c_op c1); apply (Hsel c1 Hc1). }
  destruct (Hsw f Hneat) as (Hc & Hl & _). rewrite Ht. exact Hc.
Qed.

(** ** C02 *)
(** Whatever the file system, the sandbox, the options and the selection, and also when accept fails: if a path is not the same at two
    consecutive moments of an accept, a selected change asked for it ([reason]): the path is what a selected removal names, the
    destination of a selected change, inside what a selected rename moves away or moves to, inside what the sandbox stages for a
    selected change, or under a name that accept makes up. Paths that are removed or moved away are gone afterwards. *)
Theorem C02_every_step : ∀ (e : env) (f : fs) (ub : path) (inc : bool) (pats : list string),
  wf_tree f → env_ok e → fresh_uuids e f → one_length e →
  last (moments f (accept e ub inc pats f)) = Some (o_fs (accept e ub inc pats f)) ∧
  ∀ i a b, moments f (accept e ub inc pats f) !! i = Some a → moments f (accept e ub inc pats f) !! S i = Some b →
  ∀ p, b !! p ≠ a !! p → ∃ sel, selected e f ub inc pats = Ok sel ∧ reason e sel a p (b !! p = None).
Proof.
  intros e f ub inc pats Hwf He Hfu Hlen. split; [exact (proj1 (C04_atomic e f ub inc pats Hwf He Hfu Hlen))|].
  destruct (accept_reasons e f ub inc pats Hwf He Hfu Hlen) as [Hc Hnone].
  intros i a b Ha Hb p Hp. destruct (selected e f ub inc pats) as [sel|er].
  - exists sel. split; [done|]. exact (chain_lookup _ _ _ i a b Hc Ha Hb p Hp).
  - unfold moments in Hb. rewrite (Hnone eq_refl) in Hb. discriminate Hb.
Qed.
Print Assumptions C02_every_step.

(** A path that no selected change asks for, at any moment, stays as it is throughout. *)
Theorem C02_untouched : ∀ (e : env) (f : fs) (ub : path) (inc : bool) (pats : list string),
  wf_tree f → env_ok e → fresh_uuids e f → one_length e → ∀ p,
  (∀ sel s g, selected e f ub inc pats = Ok sel → s ∈ moments f (accept e ub inc pats f) → ¬ reason e sel s p g) →
  ∀ s, s ∈ moments f (accept e ub inc pats f) → s !! p = f !! p.
Proof.
  intros e f ub inc pats Hwf He Hfu Hlen p Hno s Hs. apply elem_of_list_lookup in Hs as [i Hi]. revert s Hi.
  destruct (C02_every_step e f ub inc pats Hwf He Hfu Hlen) as [_ Hstep].
  induction i as [|i IH]; intros s Hi; [injection Hi as <-; reflexivity|].
  destruct (moments f (accept e ub inc pats f) !! i) as [a|] eqn:Ea.
  2:{ apply lookup_ge_None in Ea. apply lookup_lt_Some in Hi. lia. }
  rewrite <-(IH a eq_refl). destruct (decide (s !! p = a !! p)) as [E|Hne]; [exact E|].
  destruct (Hstep i a s Ea Hi p Hne) as (sel & Hsel & Hr). destruct (Hno sel a _ Hsel ltac:(by eapply elem_of_list_lookup_2) Hr).
Qed.
Print Assumptions C02_untouched.

(** Accepting only /etc/conf of a sandbox that also removes /etc/gone: the hypotheses are met, /etc/conf changes, and no selected change
    asks for /etc/gone at any moment. *)
Definition no_reasonb (e : env) (sel : list change) (l : list fs) (p : path) : bool :=
  forallb (λ x, match c_op x with OSet _ => true | _ => false end &&
    forallb (λ s, match lookup_l s (c_dest x) with Ok q => negb (bool_decide (q = p)) | Err _ => true end &&
      match c_staged x with Some d => match lookup_l s (d_path d) with Ok q => negb (under q p) | Err _ => true end | None => true end) l) sel.
Lemma no_reasonb_spec (e : env) (sel : list change) (l : list fs) (p : path) : no_reasonb e sel l p = true →
  (∀ y, y ∈ p → ¬ made_up e y) → ∀ s g, s ∈ l → ¬ reason e sel s p g.
Proof.
  unfold no_reasonb. rewrite forallb_forall. intros H Hy s g Hs Hr.
  assert (∀ x, x ∈ sel → match c_op x with OSet _ => true | _ => false end = true ∧
    (∀ q, lookup_l s (c_dest x) = Ok q → q ≠ p) ∧ ∀ d q, c_staged x = Some d → lookup_l s (d_path d) = Ok q → under q p = false) as Hx.
  { intros x Hx. specialize (H x ltac:(by apply elem_of_list_In)). apply andb_true_iff in H as [H1 H2]. split; [exact H1|].
    rewrite forallb_forall in H2. specialize (H2 s ltac:(by apply elem_of_list_In)). apply andb_true_iff in H2 as [H2 H3]. split.
    - intros q Hq. rewrite Hq in H2. apply negb_true_iff, bool_decide_eq_false in H2. exact H2.
    - intros d q Hd Hq. rewrite Hd, Hq in H3. by apply negb_true_iff in H3. }
  destruct Hr as [x s' Hin Ho _ _ _|x s' q Hin Ho _ _ _ _|q y Hm Hu|x t Hin Ho Hl|x q Hin Ho _ _|x d q Hin Hd Hl Hu _].
  - destruct (Hx x Hin) as [K _]. rewrite Ho in K. discriminate K.
  - destruct (Hx x Hin) as [K _]. rewrite Ho in K. discriminate K.
  - apply under_spec in Hu as [z ->]. apply (Hy y); [|exact Hm]. apply elem_of_app. left. apply elem_of_app. right. left.
  - destruct (Hx x Hin) as (_ & K & _). destruct (K p Hl eq_refl).
  - destruct (Hx x Hin) as [K _]. rewrite Ho in K. discriminate K.
  - destruct (Hx x Hin) as (_ & _ & K). rewrite (K d q Hd Hl) in Hu. discriminate Hu.
Qed.
Example C02_every_step_nonvacuous :
  wf_tree demo_fs ∧ env_ok demo_env ∧ fresh_uuids demo_env demo_fs ∧ one_length demo_env ∧
  let l := moments demo_fs (accept demo_env demo_ub true ["/etc/conf"] demo_fs) in
  existsb (λ s, bool_decide (content_at s ["etc"; "conf"] = Some "new")) l = true ∧
  (∀ sel s g, selected demo_env demo_fs demo_ub true ["/etc/conf"] = Ok sel → s ∈ l → ¬ reason demo_env sel s ["etc"; "gone"] g) ∧
  match selected demo_env demo_fs demo_ub true ["/etc"; "/etc/gone"] with Ok sel => existsb (λ x, match c_op x with ORemove => true | _ => false end) sel | Err _ => false end = true.
Proof.
  split; [apply wf_treeb_spec; vm_compute; reflexivity|]. split; [exact demo_env_ok|]. split; [exact demo_fresh|]. split; [intros ? ? ? ?; reflexivity|]. intros l.
  split; [vm_compute; reflexivity|]. split; [|vm_compute; reflexivity].
  intros sel s g Hsel. apply no_reasonb_spec.
  - assert (match selected demo_env demo_fs demo_ub true ["/etc/conf"] with Ok sel => no_reasonb demo_env sel l ["etc"; "gone"] | Err _ => false end = true) as H
      by (vm_compute; reflexivity).
    rewrite Hsel in H. exact H.
  - intros y Hy [i Hi]. apply elem_of_cons in Hy as [-> |Hy]; [destruct Hi as [Hi|Hi]; vm_compute in Hi; discriminate Hi|].
    apply elem_of_list_singleton in Hy as ->. destruct Hi as [Hi|Hi]; vm_compute in Hi; discriminate Hi.
Qed.
