(** * The storage directory: C67, C68, C69. *)
From Verif Require Import Storage PathFacts FSFacts SysFacts Props_Creds Props_Redirect Checkers.

(** ** Lookups that go on *)
Lemma walk_snoc (f : fs) (n : nat) (cur todo : path) (q : path) (x : string) : wf_tree f →
  is_Some (f !! cur) → walk n f true cur todo = Ok q → is_dir_at f q → comp_ok x →
  walk n f false cur (todo ++ [x]) = Ok (q ++ [x]).
Proof.
  intros Hwf. revert cur todo. induction n as [n IHn] using lt_wf_ind. intros cur todo. revert cur.
  induction todo as [|c rest IH]; intros cur Hcur Hw Hq Hx.
  - rewrite walk_nil in Hw. injection Hw as <-. cbn [app]. rewrite walk_cons.
    pose proof (comp_ok_tests x Hx) as Ht. destruct Hx as (X1 & X2 & X3 & _).
    apply String.eqb_neq in X1, X2, X3. rewrite X1, X2, X3. cbn [orb].
    destruct Hq as (d & -> & Hd). rewrite Hd. cbn [is_kdir].
    destruct (f !! (cur ++ [x])) as [nd|]; [|done].
    destruct (n_kind nd); try (by rewrite walk_nil). done.
  - cbn [app]. rewrite walk_cons in Hw. rewrite walk_cons.
    destruct (String.eqb c "" || String.eqb c "."); [by apply IH|].
    destruct (String.eqb c "..").
    { apply IH; [|done|done|done]. destruct Hcur as [k Hk].
      destruct (path_snoc_case cur) as [-> |(r & y & ->)]; [by exists k|].
      rewrite removelast_snoc. by eapply wf_is_Some_prefix. }
    destruct (f !! cur) as [d|] eqn:Ed; [|done]. destruct (is_kdir (n_kind d)); [|done].
    destruct (f !! (cur ++ [c])) as [nd|] eqn:End.
    + assert (rest ++ [x] ≠ []) as Hne by (by destruct rest).
      destruct (n_kind nd) as [ct| |t|rd|rd| |] eqn:Ek; try (by apply IH; [by exists nd|done..]).
      assert (match n with
              | 0 => Err ELOOP
              | S n' => walk n' f true (if is_abs t then [] else cur) (split_on "/" t ++ rest)
              end = Ok q) as Hw' by (by destruct rest).
      destruct (rest ++ [x]) as [|y l] eqn:El; [done|]. rewrite <-El.
      destruct n as [|n']; [done|]. rewrite app_assoc. apply (IHn n' ltac:(lia)); [|done|done|done].
      destruct (is_abs t); [|by exists d]. destruct (wf_root f Hwf) as (r0 & Hr & _). by exists r0.
    + destruct rest as [|y rest]; [|done]. injection Hw as <-. destruct Hq as (m & Hm & _). congruence.
Qed.
Lemma lookup_snoc (f : fs) (p q : path) (x : string) : wf_tree f → lookup_f f p = Ok q → is_dir_at f q → comp_ok x →
  lookup_l f (p ++ [x]) = Ok (q ++ [x]).
Proof.
  intros Hwf. unfold lookup_f, lookup_l. apply walk_snoc; [done|].
  destruct (wf_root f Hwf) as (r & Hr & _). by exists r.
Qed.

(** A lookup that ends at nothing finds what is put there. *)
Lemma walk_fill (f : fs) (n : nat) (cur todo q : path) (d : node) : wf_tree f → is_Some (f !! cur) →
  walk n f false cur todo = Ok q → f !! q = None → n_kind d = KDir → walk n (<[q := d]> f) true cur todo = Ok q.
Proof.
  intros Hwf. revert cur todo. induction n as [n IHn] using lt_wf_ind. intros cur todo. revert cur.
  induction todo as [|c rest IH]; intros cur Hcur Hw Hq Hd.
  - rewrite walk_nil in Hw. injection Hw as <-. by destruct Hcur as [k Hk]; rewrite Hq in Hk.
  - rewrite walk_cons in Hw. rewrite walk_cons.
    destruct (String.eqb c "" || String.eqb c "."); [by apply IH|].
    destruct (String.eqb c "..").
    { apply IH; [|done|done|done]. destruct Hcur as [k Hk].
      destruct (path_snoc_case cur) as [-> |(r & y & ->)]; [by exists k|].
      rewrite removelast_snoc. by eapply wf_is_Some_prefix. }
    destruct (f !! cur) as [dn|] eqn:Ed; [|done].
    rewrite (lookup_insert_ne f q cur) by congruence. rewrite Ed. destruct (is_kdir (n_kind dn)); [|done].
    destruct (f !! (cur ++ [c])) as [nd|] eqn:End.
    + rewrite lookup_insert_ne by congruence. rewrite End.
      destruct (n_kind nd) as [ct| |t|rd|rd| |] eqn:Ek; try (by apply IH; [by exists nd|done..]).
      destruct rest as [|y rest]; [injection Hw as <-; congruence|].
      destruct n as [|n']; [done|]. apply (IHn n' ltac:(lia)); [|done|done|done].
      destruct (is_abs t); [|by exists dn]. destruct (wf_root f Hwf) as (r0 & Hr & _). by exists r0.
    + destruct rest as [|y rest]; [|done]. injection Hw as <-. rewrite lookup_insert, Hd. by rewrite walk_nil.
Qed.

Lemma contains_cons_intro (a : ascii) (s : string) : a ≠ "/"%char → contains "/" s = false → contains "/" (String a s) = false.
Proof.
  intros Ha Hs. cbn [contains starts_with]. apply orb_false_iff. split; [|exact Hs].
  apply andb_false_iff. left. apply Ascii.eqb_neq. congruence.
Qed.
Lemma split_on_no_sep (s x : string) : x ∈ split_on "/" s → contains "/" x = false.
Proof.
  revert x. induction s as [|a s IH]; intros x Hx; cbn [split_on] in Hx.
  - apply elem_of_list_singleton in Hx as ->. reflexivity.
  - destruct (Ascii.eqb_spec a "/") as [-> |Hne].
    + apply elem_of_cons in Hx as [-> |Hx]; [reflexivity|by apply IH].
    + destruct (split_on "/" s) as [|y l] eqn:E.
      * apply elem_of_list_singleton in Hx as ->. apply contains_cons_intro; [done|reflexivity].
      * apply elem_of_cons in Hx as [-> |Hx]; [|apply IH; apply elem_of_cons; by right].
        apply contains_cons_intro; [done|]. apply IH, elem_of_cons. by left.
Qed.

(** Growing: what is there stays. *)
Definition only_adds (f f' : fs) : Prop := ∀ q n, f !! q = Some n → f' !! q = Some n.
Lemma only_adds_trans (f g h : fs) : only_adds f g → only_adds g h → only_adds f h.
Proof. intros H1 H2 q n Hq. by apply H2, H1. Qed.

Definition made (f : fs) (p : path) (f' : fs) : Prop :=
  wf_tree f' ∧ only_adds f f' ∧
  (∀ q n, f' !! q = Some n → f !! q = None → n_kind n = KDir) ∧
  ∃ q, lookup_f f' p = Ok q ∧ is_dir_at f' q ∧ (f' = f ∨ (f !! q = None ∧ below f' q = [])).

Lemma mkdir_emits (umask : N) (f : fs) (p : path) (u : unit) : wf_tree f → Forall comp_ok p →
  o_res (sys_mkdir umask p f) = Ok u →
  made f p (o_fs (sys_mkdir umask p f)) ∧ o_trace (sys_mkdir umask p f) = [o_fs (sys_mkdir umask p f)] ∧
  exists_ f p = false.
Proof.
  intros Hwf Hp H. unfold sys_mkdir in *. destruct (lookup_l f p) as [q|] eqn:El; [|discriminate H].
  destruct (f !! q) as [n|] eqn:Eq; [discriminate H|]. cbn [emit o_fs o_trace]. set (d := Node _ _ _ _ _ _).
  assert (is_Some (f !! [])) as Hroot by (destruct (wf_root f Hwf) as (r & Hr & _); by exists r).
  destruct (walk_ok_parent _ _ _ _ _ _ Hwf Hroot El) as [[m Hm]|(q' & c & -> & Hd)]; [congruence|].
  assert (comp_ok c) as Hc.
  { clear H d. unfold lookup_l in El.
    assert (∀ n cur todo, (∀ x, x ∈ todo → x = ".." ∨ x = "" ∨ contains "/" x = false) →
      is_Some (f !! cur) → walk n f false cur todo = Ok (q' ++ [c]) → comp_ok c) as Hgen.
    { intros n. induction n as [n IHn] using lt_wf_ind. intros cur todo. revert cur.
      induction todo as [|x rest IH]; intros cur Hcs Hcur Hw.
      - rewrite walk_nil in Hw. injection Hw as ->. destruct Hcur as [k Hk]. congruence.
      - rewrite walk_cons in Hw.
        assert (∀ y, y ∈ rest → y = ".." ∨ y = "" ∨ contains "/" y = false) as Hcs' by (intros y Hy; apply Hcs, elem_of_cons; by right).
        destruct (String.eqb x "" || String.eqb x ".") eqn:E1; [by apply (IH cur)|].
        destruct (String.eqb x "..") eqn:E2.
        { apply (IH (removelast cur)); [done| |done]. destruct Hcur as [k Hk].
          destruct (path_snoc_case cur) as [-> |(r & y & ->)]; [by exists k|].
          rewrite removelast_snoc. by eapply wf_is_Some_prefix. }
        destruct (f !! cur) as [dn|] eqn:Ed; [|done]. destruct (is_kdir (n_kind dn)); [|done].
        destruct (f !! (cur ++ [x])) as [nd|] eqn:End.
        + destruct (n_kind nd) as [ct| |t|rd|rd| |] eqn:Ek; try (by apply (IH (cur ++ [x])); [done|by exists nd|done]).
          destruct rest as [|y rest]; [injection Hw as Hw; apply app_inj_tail in Hw as [-> ->]; congruence|].
          destruct n as [|n']; [done|].
          apply (IHn n' ltac:(lia) (if is_abs t then [] else cur) (split_on "/" t ++ y :: rest)); [| |done].
          * intros z Hz. apply elem_of_app in Hz as [Hz|Hz]; [|by apply Hcs'].
            right. right. by eapply split_on_no_sep.
          * destruct (is_abs t); [done|by exists dn].
        + destruct rest as [|y rest]; [|done]. injection Hw as Hw. apply app_inj_tail in Hw as [-> ->].
          apply orb_false_iff in E1 as [E1 E1']. apply String.eqb_neq in E1, E1', E2.
          destruct (Hcs c ltac:(apply elem_of_cons; by left)) as [? |[? |?]]; [done|done|]. by repeat split. }
    apply (Hgen max_links [] p); [|done|done].
    intros x Hx. rewrite Forall_forall in Hp. right. right. by apply Hp. }
  split; [|split; [done|]].
  - assert (wf_tree (<[q' ++ [c]:=d]> f)) as Hwf'.
    { apply wf_insert; [done|by apply dirpath_snoc| |by left]. cbn [d n_perm]. by apply and_not_lt. }
    split; [done|]. split.
    { intros k n Hk. rewrite lookup_insert_ne; [done|congruence]. }
    split.
    { intros k n Hk Hn. destruct (decide (k = q' ++ [c])) as [-> |Hne].
      - rewrite lookup_insert in Hk. by injection Hk as <-.
      - rewrite lookup_insert_ne in Hk by done. congruence. }
    exists (q' ++ [c]). split; [by apply walk_fill|]. split.
    { exists d. split; [by rewrite lookup_insert|done]. }
    right. split; [done|]. apply below_nil. intros s Hs. rewrite lookup_insert_ne by (intros E; by apply (snoc_ne_self (q' ++ [c]) s)).
    by apply (proj1 (below_nil f (q' ++ [c])) (wf_none_below f _ Hwf Eq)).
  - unfold exists_, stat. destruct (lookup_f f p) as [q|] eqn:Ef; [|done]. cbn [rbind].
    destruct (f !! q) as [m|] eqn:Em; [|done]. exfalso.
    destruct (path_snoc_case p) as [-> |(p' & x & ->)].
    { unfold lookup_l in El. rewrite walk_nil in El. destruct q'; discriminate El. }
    pose proof (walk_prefix_found f max_links [] (p' ++ [x]) [] q m Hwf Hroot) as Hpf.
    rewrite app_nil_r in Hpf. destruct (Hpf Ef Em) as (q2 & Hq2 & [k Hk]). unfold lookup_l in El. rewrite El in Hq2.
    injection Hq2 as <-. congruence.
Qed.

Lemma is_dir_lookup (f : fs) (p : path) : is_dir f p = true → ∃ q, lookup_f f p = Ok q ∧ is_dir_at f q.
Proof.
  unfold is_dir, stat. destruct (lookup_f f p) as [q|]; [|done]. cbn [rbind].
  destruct (f !! q) as [n|] eqn:E; [|done]. intros H. exists q. split; [done|]. exists n. split; [done|]. by apply is_kdir_true.
Qed.
Lemma made_refl (f : fs) (p : path) : wf_tree f → is_dir f p = true → made f p f.
Proof.
  intros Hwf H. split; [done|]. split; [by intros q n|]. split; [intros q n H1 H2; congruence|].
  destruct (is_dir_lookup f p H) as (q & Hq & Hd). exists q. auto.
Qed.
Lemma sys_mkdir_err (umask : N) (f : fs) (p : path) (e : err) : o_res (sys_mkdir umask p f) = Err e →
  o_fs (sys_mkdir umask p f) = f ∧ o_trace (sys_mkdir umask p f) = [].
Proof.
  unfold sys_mkdir. destruct (lookup_l f p) as [q|]; [|done]. destruct (f !! q); done.
Qed.

(** The intermediate states only add empty directories; on success the path is a directory that either
    was there, and then nothing happened, or is new. *)
Definition adds_dirs (f f' : fs) : Prop :=
  only_adds f f' ∧ ∀ q n, f' !! q = Some n → f !! q = None → n_kind n = KDir.
Lemma adds_dirs_refl (f : fs) : adds_dirs f f.
Proof. split; [by intros q n|]. intros q n H1 H2. congruence. Qed.
Lemma adds_dirs_trans (f g h : fs) : adds_dirs f g → adds_dirs g h → adds_dirs f h.
Proof.
  intros [A1 B1] [A2 B2]. split; [by eapply only_adds_trans|]. intros q n Hq Hf.
  destruct (g !! q) as [m|] eqn:E; [|by eapply B2]. pose proof (A2 q m E) as Hm. rewrite Hq in Hm. injection Hm as ->.
  by eapply B1.
Qed.
Lemma made_adds (f f' : fs) (p : path) : made f p f' → adds_dirs f f'.
Proof. intros (_ & A & B & _). by split. Qed.

Lemma or_is_dir_ok (umask : N) (f : fs) (p : path) : wf_tree f → Forall comp_ok p →
  Forall (adds_dirs f) (o_trace (or_is_dir p (sys_mkdir umask p) f)) ∧
  adds_dirs f (o_fs (or_is_dir p (sys_mkdir umask p) f)) ∧
  ∀ u, o_res (or_is_dir p (sys_mkdir umask p) f) = Ok u →
    made f p (o_fs (or_is_dir p (sys_mkdir umask p) f)).
Proof.
  intros Hwf Hp. unfold or_is_dir. cbv zeta. destruct (o_res (sys_mkdir umask p f)) as [u|e] eqn:E.
  - destruct (mkdir_emits umask f p u Hwf Hp E) as (Hm & Ht & _). rewrite Ht. pose proof (made_adds _ _ _ Hm) as Ha.
    split; [apply Forall_cons; split; [done|apply Forall_nil_2]|]. split; [done|]. done.
  - destruct (sys_mkdir_err umask f p e E) as [Hf Ht]. rewrite Hf. destruct (is_dir f p) eqn:Ed.
    + cbn [o_trace o_fs o_res]. rewrite Ht. split; [by apply Forall_nil_2|]. split; [apply adds_dirs_refl|].
      intros _ _. by apply made_refl.
    + rewrite Ht, Hf. split; [by apply Forall_nil_2|]. split; [apply adds_dirs_refl|]. intros u. rewrite E. discriminate.
Qed.

Lemma create_dir_all_ok (umask : N) (rp : path) (f : fs) : wf_tree f → Forall comp_ok rp →
  Forall (adds_dirs f) (o_trace (create_dir_all umask rp f)) ∧
  adds_dirs f (o_fs (create_dir_all umask rp f)) ∧
  ∀ u, o_res (create_dir_all umask rp f) = Ok u → made f (rev rp) (o_fs (create_dir_all umask rp f)).
Proof.
  intros Hwf. induction rp as [|x rp IH]; intros Hc.
  - assert (Forall comp_ok (rev [])) as Hp by apply Forall_nil_2.
    pose proof (or_is_dir_ok umask f (rev []) Hwf Hp) as H.
    cbn [create_dir_all]. cbv zeta. destruct (o_res (sys_mkdir umask (rev []) f)) as [u|e] eqn:E; [exact H|].
    destruct (sys_mkdir_err umask f (rev []) e E) as [Hf Ht].
    destruct e; try exact H. rewrite Hf, Ht, E.
    split; [apply Forall_nil_2|]. split; [apply adds_dirs_refl|]. intros u Hu. discriminate Hu.
  - assert (Forall comp_ok (rev (x :: rp))) as Hp by (by apply Forall_rev).
    pose proof (or_is_dir_ok umask f (rev (x :: rp)) Hwf Hp) as H.
    apply Forall_cons in Hc as [Hx Hc]. specialize (IH Hc). destruct IH as (T & A & Hm).
    cbn [create_dir_all]. cbv zeta. destruct (o_res (sys_mkdir umask (rev (x :: rp)) f)) as [u|e] eqn:E; [exact H|].
    destruct e; try exact H. clear H.
    destruct (o_res (create_dir_all umask rp f)) as [u1|e1] eqn:E1.
    + unfold bind_. cbv zeta. rewrite E1. cbn [o_trace o_fs o_res].
      specialize (Hm u1 eq_refl). pose proof Hm as (Hwf1 & _ & _ & q & Hq & Hqd & Hcase).
      set (f1 := o_fs (create_dir_all umask rp f)) in *.
      destruct (or_is_dir_ok umask f1 (rev (x :: rp)) Hwf1 Hp) as (T2 & A2 & _).
      split; [|split].
      * apply Forall_app. split; [done|]. eapply Forall_impl; [exact T2|]. intros g Hg. by eapply adds_dirs_trans.
      * by eapply adds_dirs_trans.
      * intros u Hu. assert (lookup_l f1 (rev (x :: rp)) = Ok (q ++ [x])) as Hl.
        { cbn [rev]. by apply lookup_snoc. }
        destruct Hcase as [Heq|[Hfq Hb]].
        { exfalso. rewrite Heq in Hl. unfold sys_mkdir in E. rewrite Hl in E. destruct (f !! (q ++ [x])); discriminate E. }
        assert (f1 !! (q ++ [x]) = None) as Hn by (by apply (proj1 (below_nil f1 q) Hb)).
        assert (o_res (sys_mkdir umask (rev (x :: rp)) f1) = Ok tt) as E2.
        { unfold sys_mkdir. by rewrite Hl, Hn. }
        destruct (mkdir_emits umask f1 (rev (x :: rp)) tt Hwf1 Hp E2) as (Hm2 & _ & _).
        unfold or_is_dir. cbv zeta. rewrite E2. destruct Hm2 as (W2 & O2 & D2 & q2 & Hq2 & Hd2 & Hc2).
        split; [done|]. destruct (adds_dirs_trans f f1 _ A (conj O2 D2)) as [O3 D3]. split; [done|]. split; [done|].
        exists q2. split; [done|]. split; [done|]. right. destruct Hc2 as [Hc2|[Hc2 Hb2]].
        { exfalso. unfold sys_mkdir in Hc2. rewrite Hl, Hn in Hc2. cbn [emit o_fs] in Hc2.
          assert (f1 !! (q ++ [x]) ≠ None) as HH; [|done]. rewrite <-Hc2, lookup_insert. done. }
        split; [|done]. destruct (f !! q2) as [m|] eqn:Em; [|done]. by rewrite (proj1 A q2 m Em) in Hc2.
    + unfold bind_. cbv zeta. rewrite E1. cbn [o_trace o_fs o_res]. split; [done|]. split; [done|].
      intros u Hu. discriminate Hu.
Qed.

Lemma exists_lookup (f : fs) (p q : path) (n : node) : lookup_f f p = Ok q → f !! q = Some n → exists_ f p = true.
Proof. intros H1 H2. unfold exists_, stat. rewrite H1. cbn [rbind]. by rewrite H2. Qed.
Lemma owner_same (n : node) (u g : N) : n_kind n = KDir → n_uid n = u → n_gid n = g →
  set_owner (set_perm n (chown_perm n)) u g = n.
Proof. destruct n as [k pm a b d x]. cbn. intros -> -> ->. reflexivity. Qed.
Lemma walk_not_link (f : fs) (n : nat) (cur todo q : path) (m : node) : wf_tree f → is_Some (f !! cur) →
  walk n f false cur todo = Ok q → f !! q = Some m → is_klink (n_kind m) = false → walk n f true cur todo = Ok q.
Proof.
  intros Hwf. revert cur todo. induction n as [n IHn] using lt_wf_ind. intros cur todo. revert cur.
  induction todo as [|c rest IH]; intros cur Hcur Hw Hq Hm.
  - by rewrite walk_nil in *.
  - rewrite walk_cons in Hw. rewrite walk_cons.
    destruct (String.eqb c "" || String.eqb c "."); [by apply IH|].
    destruct (String.eqb c "..").
    { apply IH; [|done|done|done]. destruct Hcur as [k Hk].
      destruct (path_snoc_case cur) as [-> |(r & y & ->)]; [by exists k|].
      rewrite removelast_snoc. by eapply wf_is_Some_prefix. }
    destruct (f !! cur) as [dn|] eqn:Ed; [|done]. destruct (is_kdir (n_kind dn)); [|done].
    destruct (f !! (cur ++ [c])) as [nd|] eqn:End.
    + destruct (n_kind nd) as [ct| |t|rd|rd| |] eqn:Ek; try (by apply IH; [by exists nd|done..]).
      destruct rest as [|y rest]; [injection Hw as <-; rewrite Hq in End; injection End as <-; by rewrite Ek in Hm|].
      destruct n as [|n']; [done|]. apply (IHn n' ltac:(lia)); [|done|done|done].
      destruct (is_abs t); [|by exists dn]. destruct (wf_root f Hwf) as (r0 & Hr & _). by exists r0.
    + done.
Qed.

(** Changing a directory's owner does not change where paths lead. *)
Lemma walk_update (f1 : fs) (q : path) (n n' : node) (k : nat) (todo : path) : wf_tree f1 → f1 !! q = Some n →
  n_kind n = KDir → n_kind n' = KDir → walk k f1 true [] todo = Ok q → walk k (<[q := n']> f1) true [] todo = Ok q.
Proof.
  intros Hwf1 Hn Hk Hk'.
  assert (is_Some (f1 !! [])) as Hr1 by (destruct (wf_root f1 Hwf1) as (r & Hr & _); by exists r).
  assert (∀ cur todo, is_Some (f1 !! cur) → walk k f1 true cur todo = Ok q → walk k (<[q := n']> f1) true cur todo = Ok q) as Hgen;
    [|by apply Hgen].
  clear todo. induction k as [k IHk] using lt_wf_ind. intros cur todo. revert cur.
  induction todo as [|c rest IH]; intros cur Hcur Hw; [by rewrite walk_nil in *|].
  rewrite walk_cons in Hw. rewrite walk_cons.
  destruct (String.eqb c "" || String.eqb c "."); [by apply IH|].
  destruct (String.eqb c "..").
  { apply IH; [|done]. destruct Hcur as [x Hx]. destruct (path_snoc_case cur) as [-> |(r & y & ->)]; [by exists x|].
    rewrite removelast_snoc. by eapply wf_is_Some_prefix. }
  destruct (f1 !! cur) as [d|] eqn:Ed; [|done]. destruct (is_kdir (n_kind d)) eqn:Edk; [|done].
  assert (∃ d', <[q := n']> f1 !! cur = Some d' ∧ is_kdir (n_kind d') = true) as (d' & -> & ->).
  { destruct (decide (q = cur)) as [<- |Hne]; [exists n'; rewrite lookup_insert, Hk'; done|].
    exists d. by rewrite lookup_insert_ne. }
  destruct (f1 !! (cur ++ [c])) as [nd|] eqn:End.
  - assert (∃ nd', <[q := n']> f1 !! (cur ++ [c]) = Some nd' ∧ n_kind nd' = n_kind nd) as (nd' & -> & ->).
    { destruct (decide (q = cur ++ [c])) as [Heq|Hne]; [exists n'|exists nd].
      - rewrite <-Heq, lookup_insert. split; [done|]. rewrite Heq in Hn. congruence.
      - by rewrite lookup_insert_ne. }
    destruct (n_kind nd) as [ct| |t|rd|rd| |] eqn:Ek; try (by apply IH; [by exists nd|done]).
    assert (match k with
            | 0 => Err ELOOP
            | S k' => walk k' f1 true (if is_abs t then [] else cur) (split_on "/" t ++ rest)
            end = Ok q) as Hw' by (by destruct rest).
    clear Hw. destruct k as [|k']; [done|].
    assert (walk k' (<[q:=n']> f1) true (if is_abs t then [] else cur) (split_on "/" t ++ rest) = Ok q) as Hres.
    { apply (IHk k' ltac:(lia)); [|done]. destruct (is_abs t); [done|by exists d]. }
    by destruct rest.
  - destruct rest as [|y rest]; [|done]. injection Hw as Hw. congruence.
Qed.

Lemma out_eta {A : Type} (o : out A) : Out (o_trace o) (o_fs o) (o_res o) = o.
Proof. by destruct o. Qed.
Lemma mkdir_existing (umask : N) (p : path) (uid gid : N) (f : fs) : exists_ f p = true →
  mkdir umask p uid gid f =
    match lstat f p with
    | Err e => Out [] f (Err e)
    | Ok n => if negb (is_kdir (n_kind n)) then Out [] f (Err (EApp "already exists but is not a directory"))
              else if negb (N.eqb (n_uid n) uid && N.eqb (n_gid n) gid)
                   then Out [] f (Err (EApp "already exists with different owner or group"))
                   else sys_chown p uid gid f
    end.
Proof.
  intros Ex. unfold mkdir. rewrite Ex. unfold bind_, get_. destruct (lstat f p) as [n|e]; [|reflexivity].
  cbn [o_res o_fs o_trace app]. destruct (negb (is_kdir (n_kind n))); [reflexivity|].
  destruct (negb _); [reflexivity|]. cbn [ret_ o_res o_fs o_trace app]. apply out_eta.
Qed.

(** [mkdir]: no file or directory that exists is changed, in any intermediate state; on success the path
    is a directory of the user. *)
Lemma mkdir_safe (umask : N) (p : path) (uid gid : N) (f : fs) : wf_tree f → Forall comp_ok p →
  Forall (adds_dirs f) (o_trace (mkdir umask p uid gid f)) ∧ adds_dirs f (o_fs (mkdir umask p uid gid f)) ∧
  (∀ u, o_res (mkdir umask p uid gid f) = Ok u →
     ∃ n, stat (o_fs (mkdir umask p uid gid f)) p = Ok n ∧ n_kind n = KDir ∧ n_uid n = uid ∧ n_gid n = gid).
Proof.
  intros Hwf Hp.
  assert (is_Some (f !! [])) as Hroot by (destruct (wf_root f Hwf) as (r & Hr & _); by exists r).
  destruct (exists_ f p) eqn:Ex.
  - rewrite (mkdir_existing umask p uid gid f Ex). destruct (lstat f p) as [n|e] eqn:El.
    2:{ cbn [o_res o_fs o_trace]. split; [apply Forall_nil_2|]. split; [apply adds_dirs_refl|]. done. }
    destruct (is_kdir (n_kind n)) eqn:Ek; cbn [negb].
    2:{ cbn [o_res o_fs o_trace]. split; [apply Forall_nil_2|]. split; [apply adds_dirs_refl|]. done. }
    destruct (N.eqb (n_uid n) uid && N.eqb (n_gid n) gid)%bool eqn:Eo; cbn [negb].
    2:{ cbn [o_res o_fs o_trace]. split; [apply Forall_nil_2|]. split; [apply adds_dirs_refl|]. done. }
    apply andb_true_iff in Eo as [Eu Eg]. apply N.eqb_eq in Eu, Eg. apply is_kdir_true in Ek.
    unfold lstat in El. destruct (lookup_l f p) as [q|] eqn:Eq; [|done]. cbn [rbind] in El.
    destruct (f !! q) as [m|] eqn:Em; [|done]. injection El as ->.
    assert (lookup_f f p = Ok q) as Ef.
    { apply (walk_not_link f max_links [] p q n Hwf Hroot Eq Em). by rewrite Ek. }
    unfold sys_chown. rewrite Ef, Em, (owner_same n uid gid Ek Eu Eg), (insert_id f q n Em). cbn [emit o_trace o_fs o_res].
    split; [apply Forall_cons; split; [apply adds_dirs_refl|apply Forall_nil_2]|]. split; [apply adds_dirs_refl|].
    intros _ _. exists n. unfold stat. rewrite Ef. cbn [rbind]. rewrite Em. auto.
  - unfold mkdir. rewrite Ex. destruct (create_dir_all_ok umask (rev p) f Hwf ltac:(by apply Forall_rev)) as (T & A & Hm).
    rewrite rev_involutive in Hm. unfold bind_. cbv zeta.
    destruct (o_res (create_dir_all umask (rev p) f)) as [u|e] eqn:E.
    2:{ cbn [o_trace o_fs o_res]. split; [done|]. split; [done|]. done. }
    specialize (Hm u eq_refl). destruct Hm as (Hwf1 & O1 & D1 & q & Hq & (n & Hn & Hk) & Hcase).
    set (f1 := o_fs (create_dir_all umask (rev p) f)) in *.
    assert (f !! q = None) as Hfq.
    { destruct Hcase as [Heq|[Hc _]]; [|done]. rewrite Heq in Hq, Hn. by rewrite (exists_lookup f p q n Hq Hn) in Ex. }
    unfold sys_chown. rewrite Hq, Hn. cbn [emit o_trace o_fs o_res]. set (n' := set_owner _ uid gid).
    assert (n_kind n' = KDir) as Hk' by (by destruct n).
    assert (adds_dirs f (<[q := n']> f1)) as Hadd.
    { split.
      - intros k m Hkm. rewrite lookup_insert_ne by congruence. by apply O1.
      - intros k m Hkm Hnk. destruct (decide (k = q)) as [-> |Hne].
        + rewrite lookup_insert in Hkm. by injection Hkm as <-.
        + rewrite lookup_insert_ne in Hkm by done. by eapply D1. }
    split; [apply Forall_app; split; [done|apply Forall_cons; split; [done|apply Forall_nil_2]]|]. split; [done|].
    intros _ _. exists n'. unfold stat.
    assert (lookup_f (<[q := n']> f1) p = Ok q) as ->.
    { unfold lookup_f in *. by eapply walk_update. }
    cbn [rbind]. rewrite lookup_insert. split; [done|]. split; [done|]. by destruct n.
Qed.

Lemma comps_ok (s : string) : ".." ∉ comps s → Forall comp_ok (comps s).
Proof.
  intros H. apply Forall_forall. intros x Hx. unfold comps in Hx. pose proof Hx as Hx0.
  apply elem_of_list_filter in Hx as [[H1 H2] Hx]. split; [done|]. split; [done|]. split; [|by eapply split_on_no_sep].
  intros ->. by apply H.
Qed.

(** ** C67: choosing the storage directory changes nothing that exists *)
Definition C67_full : Prop := ∀ umask c table cwd arg u f, wf_tree f →
  ∀ g, g ∈ o_trace (resolve_storage umask c table cwd arg u f) ++ [o_fs (resolve_storage umask c table cwd arg u f)] →
  ∀ q n, f !! q = Some n → g !! q = Some n.

(** False: [--storage-dir /tmp/new/../../etc]. The path does not exist as long as /tmp/new does not, the
    caller may write /tmp, [create_dir_all] makes /tmp/new, and then /etc is given to the caller. *)
Definition etc_fs : fs := list_to_map
  [ ([], Node KDir 493 0 0 1 ∅); (["tmp"], Node KDir 1023 0 0 1 ∅); (["etc"], Node KDir 493 0 0 1 ∅);
    (["etc"; "shadow"], Node (KFile "root:x") 416 0 42 1 ∅);
    (["home"], Node KDir 493 0 0 1 ∅); (["home"; "u"], Node KDir 448 1000 1000 1 ∅) ].
Definition ext4_root : list mntent := [Mnt "/" "ext4"].
Definition user_u : ugh := Ugh 1000 1000 "/home/u".
Lemma wf_etc : wf_tree etc_fs.
Proof. apply wf_treeb_spec. vm_compute. reflexivity. Qed.
Theorem C67_refuted : ¬ C67_full.
Proof.
  intros H.
  pose proof (H 18%N setuid_cred ext4_root [] (Some "/tmp/new/../../etc") user_u etc_fs wf_etc
    (o_fs (resolve_storage 18 setuid_cred ext4_root [] (Some "/tmp/new/../../etc") user_u etc_fs))) as H1.
  specialize (H1 ltac:(apply elem_of_app; right; apply elem_of_list_singleton; reflexivity) ["etc"] (Node KDir 493 0 0 1 ∅) eq_refl).
  clear H. vm_compute in H1. discriminate H1.
Qed.
Print Assumptions C67_refuted.
(** What has happened to /etc: the caller owns it. *)
Example C67_etc_taken :
  n_uid <$> o_fs (resolve_storage 18 setuid_cred ext4_root [] (Some "/tmp/new/../../etc") user_u etc_fs) !! ["etc"] = Some 1000%N ∧
  o_res (resolve_storage 18 setuid_cred ext4_root [] (Some "/tmp/new/../../etc") user_u etc_fs) = Ok ["tmp"; "new"; ".."; ".."; "etc"].
Proof. vm_compute. auto. Qed.

Definition ts_out (ab ex : bool) (fm : res path) (mt : path → option string) (cm : res unit) (mk : out unit) (p : path)
    (f : fs) : out (option path) :=
  if negb ab then (if ex then Out [] f (Err ENOENT) else Out [] f (Err (EPanic "Failed to get parent of path")))
  else match fm with
       | Err e => Out [] f (Err e)
       | Ok mp =>
           match mt mp with
           | None => Out [] f (Ok None)
           | Some t =>
               if bool_decide (t ∈ storage_types) then
                 match cm with
                 | Err e => Out [] f (Err e)
                 | Ok _ => match o_res mk with
                           | Ok _ => Out (o_trace mk ++ []) (o_fs mk) (Ok (Some p))
                           | Err e => Out (o_trace mk) (o_fs mk) (Err e)
                           end
                 end
               else Out [] f (Ok None)
           end
       end.
Lemma try_storage_eq (umask uid gid : N) (c : cred) (table : list mntent) (cwd : path) (s : string) (f : fs) :
  try_storage umask uid gid c table cwd s f =
  ts_out (is_abs s) (exists_ f (cwd ++ comps s)) (find_mount_point f (comps s)) (mount_type table)
    (can_mkdir f (comps s) uid gid c).2 (mkdir umask (comps s) uid gid f) (comps s) f.
Proof.
  unfold try_storage, ts_out, throw, fail_, ret_. cbv zeta.
  destruct (negb (is_abs s)); [by destruct (exists_ f (cwd ++ comps s))|].
  destruct (find_mount_point f (comps s)); [|done]. destruct (mount_type table _); [|done].
  destruct (bool_decide _); [|done]. destruct ((can_mkdir f (comps s) uid gid c).2); [|done].
  unfold bind_. cbv zeta. destruct (mkdir umask (comps s) uid gid f) as [tr f' [[]|e]]; reflexivity.
Qed.
Lemma ts_out_safe (ab ex : bool) (fm : res path) (mt : path → option string) (cm : res unit) (mk : out unit) (p : path)
    (f : fs) (R : fs → Prop) :
  Forall (adds_dirs f) (o_trace mk) → adds_dirs f (o_fs mk) → (∀ u, o_res mk = Ok u → R (o_fs mk)) →
  let o := ts_out ab ex fm mt cm mk p f in
  Forall (adds_dirs f) (o_trace o) ∧
  adds_dirs f (o_fs o) ∧
  (∀ p', o_res o = Ok (Some p') →
     ab = true ∧ p' = p ∧ (∃ mp t, fm = Ok mp ∧ mt mp = Some t ∧ t ∈ storage_types) ∧ cm = Ok tt ∧ R (o_fs o)) ∧
  (o_res o = Ok None →
     o_trace o = [] ∧ o_fs o = f ∧ ∀ mp t, fm = Ok mp → mt mp = Some t → t ∉ storage_types).
Proof.
  intros T A Hm o. pose proof (adds_dirs_refl f) as Hr. subst o. unfold ts_out.
  destruct ab; cbn [negb].
  2:{ destruct ex; cbn [o_trace o_fs o_res]; (split; [apply Forall_nil_2|]); (split; [done|]); (split; [intros p'; discriminate|discriminate]). }
  destruct fm as [mp|e].
  2:{ cbn [o_trace o_fs o_res]. split; [apply Forall_nil_2|]. split; [done|]. split; [intros p'; discriminate|discriminate]. }
  destruct (mt mp) as [t|] eqn:Et.
  2:{ cbn [o_trace o_fs o_res]. split; [apply Forall_nil_2|]. split; [done|]. split; [intros p'; discriminate|].
      intros _. split; [done|]. split; [done|]. intros mp' t' [= <-] Ht'. congruence. }
  destruct (bool_decide (t ∈ storage_types)) eqn:Eb.
  2:{ cbn [o_trace o_fs o_res]. split; [apply Forall_nil_2|]. split; [done|]. split; [intros p'; discriminate|].
      intros _. split; [done|]. split; [done|]. intros mp' t' [= <-] Ht'.
      assert (t' = t) as -> by congruence. by apply bool_decide_eq_false in Eb. }
  apply bool_decide_eq_true in Eb.
  destruct cm as [[]|e].
  2:{ cbn [o_trace o_fs o_res]. split; [apply Forall_nil_2|]. split; [done|]. split; [intros p'; discriminate|discriminate]. }
  destruct mk as [tr f' [[]|e]]; cbn [o_trace o_fs o_res] in *.
  - rewrite app_nil_r. split; [done|]. split; [done|]. split; [|discriminate].
    intros p' [= <-]. split; [done|]. split; [done|]. split; [exists mp, t; done|]. split; [done|]. by apply (Hm tt).
  - split; [done|]. split; [done|]. split; [intros p'; discriminate|discriminate].
Qed.
Lemma try_storage_safe (umask uid gid : N) (c : cred) (table : list mntent) (cwd : path) (s : string) (f : fs) :
  wf_tree f → ".." ∉ comps s →
  Forall (adds_dirs f) (o_trace (try_storage umask uid gid c table cwd s f)) ∧
  adds_dirs f (o_fs (try_storage umask uid gid c table cwd s f)) ∧
  (∀ p, o_res (try_storage umask uid gid c table cwd s f) = Ok (Some p) →
     is_abs s = true ∧ p = comps s ∧
     (∃ mp t, find_mount_point f (comps s) = Ok mp ∧ mount_type table mp = Some t ∧ t ∈ storage_types) ∧
     (can_mkdir f (comps s) uid gid c).2 = Ok tt ∧
     ∃ n, stat (o_fs (try_storage umask uid gid c table cwd s f)) (comps s) = Ok n ∧ n_kind n = KDir ∧ n_uid n = uid ∧ n_gid n = gid) ∧
  (o_res (try_storage umask uid gid c table cwd s f) = Ok None →
     o_trace (try_storage umask uid gid c table cwd s f) = [] ∧
     o_fs (try_storage umask uid gid c table cwd s f) = f ∧
     ∀ mp t, find_mount_point f (comps s) = Ok mp → mount_type table mp = Some t → t ∉ storage_types).
Proof.
  intros Hwf Hdd. destruct (mkdir_safe umask (comps s) uid gid f Hwf (comps_ok s Hdd)) as (T & A & Hm).
  rewrite try_storage_eq.
  exact (ts_out_safe (is_abs s) (exists_ f (cwd ++ comps s)) (find_mount_point f (comps s)) (mount_type table)
    (can_mkdir f (comps s) uid gid c).2 (mkdir umask (comps s) uid gid f) (comps s) f
    (λ f', ∃ n, stat f' (comps s) = Ok n ∧ n_kind n = KDir ∧ n_uid n = uid ∧ n_gid n = gid) T A Hm).
Qed.

(** Proved for arguments without [..]: in every intermediate state everything that existed is unchanged,
    whatever is new is a directory; and if a directory is returned, it is one of the proposals, it exists
    and belongs to the user, the user may write the closest existing directory above it, and it is on a
    filesystem whose first line in the mount table has one of the five types. *)
Theorem C67_nothing_changed_partial : ∀ umask c table cwd arg u f, wf_tree f → euid c = 0%N → suid c = 0%N →
  (∀ s, s ∈ proposals arg u → ".." ∉ comps s) →
  (∀ g, g ∈ o_trace (resolve_storage umask c table cwd arg u f) ++ [o_fs (resolve_storage umask c table cwd arg u f)] →
     (∀ q n, f !! q = Some n → g !! q = Some n) ∧
     (∀ q n, g !! q = Some n → f !! q = None → n_kind n = KDir)) ∧
  (∀ p, o_res (resolve_storage umask c table cwd arg u f) = Ok p →
     (∃ s, s ∈ proposals arg u ∧ p = comps s) ∧
     (∃ n, stat (o_fs (resolve_storage umask c table cwd arg u f)) p = Ok n ∧ n_kind n = KDir ∧
           n_uid n = ugh_uid u ∧ n_gid n = ugh_gid u) ∧
     (∃ a, under a p = true ∧ a ≠ p ∧ exists_ f a = true ∧
        (∀ b, under a b = true → under b p = true → b ≠ p → a ≠ b → exists_ f b = false) ∧
        eaccess f (user_cred (ugh_uid u) (ugh_gid u) (groups c)) a 2 = Ok tt)).
Proof.
  intros umask c table cwd arg u f Hwf He Hs. unfold resolve_storage. generalize (proposals arg u) as l. intros l Hl.
  assert (Forall (adds_dirs f) (o_trace (first_storage umask (ugh_uid u) (ugh_gid u) c table cwd l f)) ∧
    adds_dirs f (o_fs (first_storage umask (ugh_uid u) (ugh_gid u) c table cwd l f)) ∧
    ∀ p, o_res (first_storage umask (ugh_uid u) (ugh_gid u) c table cwd l f) = Ok p →
      (∃ s, s ∈ l ∧ p = comps s) ∧ (can_mkdir f p (ugh_uid u) (ugh_gid u) c).2 = Ok tt ∧
      ∃ n, stat (o_fs (first_storage umask (ugh_uid u) (ugh_gid u) c table cwd l f)) p = Ok n ∧ n_kind n = KDir ∧
           n_uid n = ugh_uid u ∧ n_gid n = ugh_gid u) as (T & A & R).
  { induction l as [|s l IH]; cbn [first_storage].
    { cbn. split; [apply Forall_nil_2|]. split; [apply adds_dirs_refl|]. done. }
    destruct (try_storage_safe umask (ugh_uid u) (ugh_gid u) c table cwd s f Hwf
                (Hl s ltac:(apply elem_of_cons; by left))) as (T & A & R & N0).
    unfold bind_. cbv zeta.
    destruct (o_res (try_storage umask (ugh_uid u) (ugh_gid u) c table cwd s f)) as [[p|]|e] eqn:E.
    - cbn [ret_ o_trace o_fs o_res]. rewrite app_nil_r. split; [done|]. split; [done|].
      intros p' [= <-]. destruct (R p eq_refl) as (_ & -> & _ & Hc & Hn). split; [exists s; split; [apply elem_of_cons; by left|done]|]. auto.
    - cbn [o_trace o_fs o_res]. destruct (N0 eq_refl) as (-> & -> & _). cbn [app].
      destruct IH as (T' & A' & R'); [intros s' Hs'; apply Hl, elem_of_cons; by right|].
      split; [done|]. split; [done|]. intros p Hp. destruct (R' p Hp) as ((s' & Hs' & ->) & H2 & H3).
      split; [exists s'; split; [apply elem_of_cons; by right|done]|]. auto.
    - cbn [o_trace o_fs o_res]. split; [done|]. split; [done|]. done. }
  split.
  - intros g Hg. apply elem_of_app in Hg as [Hg|Hg].
    + rewrite Forall_forall in T. destruct (T g Hg) as [O D]. split; [exact O|exact D].
    + apply elem_of_list_singleton in Hg as ->. destruct A as [O D]. split; [exact O|exact D].
  - intros p Hp. destruct (R p Hp) as (H1 & H2 & H3). split; [done|]. split; [done|].
    by apply C49_mkdir_checked_partial.
Qed.
Print Assumptions C67_nothing_changed_partial.

Example C67_nonvacuous :
  (∀ s, s ∈ proposals None user_u → ".." ∉ comps s) ∧
  o_res (resolve_storage 18 setuid_cred ext4_root [] None user_u etc_fs) = Ok ["home"; "u"; ".sandboxes"] ∧
  (n_uid <$> o_fs (resolve_storage 18 setuid_cred ext4_root [] None user_u etc_fs) !! ["home"; "u"; ".sandboxes"]) = Some 1000%N ∧
  (* several missing levels; only the last one is given to the user *)
  o_res (resolve_storage 18 setuid_cred ext4_root [] (Some "/tmp/a/b") user_u etc_fs) = Ok ["tmp"; "a"; "b"] ∧
  (n_uid <$> o_fs (resolve_storage 18 setuid_cred ext4_root [] (Some "/tmp/a/b") user_u etc_fs) !! ["tmp"; "a"]) = Some 0%N ∧
  (* refused *)
  o_res (resolve_storage 18 setuid_cred ext4_root [] (Some "/etc/x") user_u etc_fs) = Err EACCES ∧
  o_res (resolve_storage 18 setuid_cred [Mnt "/" "nfs4"] [] None user_u etc_fs) = Err (EApp "Failed to find a suitable storage directory").
Proof.
  split; [|vm_compute; auto 10]. intros s Hs. cbn [proposals] in Hs. rewrite !elem_of_cons in Hs.
  destruct Hs as [-> |[-> |Hs]]; [| |by apply elem_of_nil in Hs];
    (refine (bool_decide_unpack _ _); vm_compute; exact I).
Qed.

(** ** C68: a storage directory that can be used is accepted *)
Definition C68_full : Prop := ∀ umask c table cwd s u f mp t n,
  wf_tree f → euid c = 0%N → suid c = 0%N → is_abs s = true → ".." ∉ comps s →
  lstat f (comps s) = Ok n → n_kind n = KDir → n_uid n = ugh_uid u → n_gid n = ugh_gid u →
  find_mount_point f (comps s) = Ok mp → mount_type table mp = Some t → t ∈ storage_types →
  o_res (resolve_storage umask c table cwd (Some s) u f) = Ok (comps s).
(** False: the user's own directory is refused if the user cannot write the directory it is in. *)
Definition srv_fs : fs := list_to_map
  [ ([], Node KDir 493 0 0 1 ∅); (["srv"], Node KDir 493 0 0 1 ∅); (["srv"; "u"], Node KDir 448 1000 1000 1 ∅) ].
Lemma wf_srv : wf_tree srv_fs.
Proof. apply wf_treeb_spec. vm_compute. reflexivity. Qed.
Theorem C68_refuted : ¬ C68_full.
Proof.
  intros H. pose proof (H 18%N setuid_cred ext4_root [] "/srv/u" user_u srv_fs [] "ext4" (Node KDir 448 1000 1000 1 ∅) wf_srv
    eq_refl eq_refl eq_refl) as H1. clear H.
  specialize (H1 ltac:(refine (bool_decide_unpack _ _); vm_compute; exact I)).
  assert (lstat srv_fs (comps "/srv/u") = Ok (Node KDir 448 1000 1000 1 ∅)) as E1 by (vm_compute; reflexivity).
  assert (find_mount_point srv_fs (comps "/srv/u") = Ok []) as E2 by (vm_compute; reflexivity).
  assert (mount_type ext4_root [] = Some "ext4") as E3 by (vm_compute; reflexivity).
  assert ("ext4" ∈ storage_types) as E4 by (refine (bool_decide_unpack _ _); vm_compute; exact I).
  specialize (H1 E1 eq_refl eq_refl eq_refl E2 E3 E4). vm_compute in H1. discriminate H1.
Qed.
Print Assumptions C68_refuted.
(** Proved if the user may also write the directory above; and then nothing is changed. *)
Theorem C68_usable_accepted_partial : ∀ umask c table cwd s p x u f mp t n,
  wf_tree f → euid c = 0%N → suid c = 0%N → is_abs s = true → comps s = p ++ [x] →
  lstat f (comps s) = Ok n → n_kind n = KDir → n_uid n = ugh_uid u → n_gid n = ugh_gid u →
  find_mount_point f (comps s) = Ok mp → mount_type table mp = Some t → t ∈ storage_types →
  exists_ f p = true → eaccess f (user_cred (ugh_uid u) (ugh_gid u) (groups c)) p 2 = Ok tt →
  o_res (resolve_storage umask c table cwd (Some s) u f) = Ok (comps s) ∧
  o_fs (resolve_storage umask c table cwd (Some s) u f) = f.
Proof.
  intros umask c table cwd s p x u f mp t n Hwf He Hs Ha Hc Hl Hk Hu Hg Hmp Ht Hin Hex Hacc.
  assert (is_Some (f !! [])) as Hroot by (destruct (wf_root f Hwf) as (r & Hr & _); by exists r).
  assert ((can_mkdir f (comps s) (ugh_uid u) (ugh_gid u) c).2 = Ok tt) as Hcm.
  { unfold can_mkdir. rewrite Hc, app_length. cbn [length]. rewrite Nat.add_1_r. cbn [ancestors_of].
    unfold parent. destruct (p ++ [x]) as [|y l] eqn:El; [by destruct p|]. rewrite <-El, removelast_snoc.
    cbn [nearest_existing]. rewrite Hex. by rewrite C49_checks_use_callers_rights_partial. }
  assert (mkdir umask (comps s) (ugh_uid u) (ugh_gid u) f = Out [f] f (Ok tt)) as Hmk.
  { unfold lstat in Hl. destruct (lookup_l f (comps s)) as [q|] eqn:Eq; [|done]. cbn [rbind] in Hl.
    destruct (f !! q) as [m|] eqn:Em; [|done]. injection Hl as ->.
    assert (lookup_f f (comps s) = Ok q) as Ef.
    { apply (walk_not_link f max_links [] (comps s) q n Hwf Hroot Eq Em). by rewrite Hk. }
    rewrite (mkdir_existing umask _ _ _ f (exists_lookup f _ q n Ef Em)).
    unfold lstat. rewrite Eq. cbn [rbind]. rewrite Em.
    rewrite Hk, Hu, Hg, !N.eqb_refl. cbn [is_kdir negb andb].
    unfold sys_chown. rewrite Ef, Em, owner_same, insert_id by done. reflexivity. }
  unfold resolve_storage. cbn [proposals first_storage]. unfold bind_ at 1 2. cbv zeta.
  unfold try_storage. rewrite Ha. cbn [negb]. rewrite Hmp, Ht, Hcm.
  rewrite (bool_decide_eq_true_2 (t ∈ storage_types) Hin). unfold bind_. cbv zeta. rewrite Hmk. done.
Qed.
Print Assumptions C68_usable_accepted_partial.
Example C68_nonvacuous :
  lstat etc_fs (comps "/home/u/") = Ok (Node KDir 448 1000 1000 1 ∅) ∧
  o_res (resolve_storage 18 (Cred 1000 0 0 1000 1000 1000 [0%N]) ext4_root [] (Some "/tmp/mine") user_u
     (<[["tmp"; "mine"] := Node KDir 448 1000 1000 1 ∅]> etc_fs)) = Ok ["tmp"; "mine"].
Proof. vm_compute. auto. Qed.

(** ** C69: the storage directory is on a filesystem overlayfs can use *)
(** Several filesystems can be mounted on one directory; the table lists them in the order of mounting
    and the last one is what is seen. *)
Definition visible_type (table : list mntent) (mp : path) : option string :=
  mnt_type <$> last (filter (λ m, mnt_dir m = path_str mp) table).
Definition C69_full : Prop := ∀ umask c table cwd s u f mp p,
  wf_tree f → is_abs s = true → ".." ∉ comps s → find_mount_point f (comps s) = Ok mp →
  o_res (resolve_storage umask c table cwd (Some s) u f) = Ok p →
  ∃ t, visible_type table mp = Some t ∧ t ∈ ["btrfs"; "ext4"; "tmpfs"; "xfs"; "zfs"].
(** False: the first line for the directory is used, so an NFS mounted over a local directory passes. *)
Definition nfs_fs : fs := list_to_map
  [ ([], Node KDir 493 0 0 1 ∅); (["home"], Node KDir 493 0 0 7 ∅); (["home"; "u"], Node KDir 448 1000 1000 7 ∅) ].
Lemma wf_nfs : wf_tree nfs_fs.
Proof. apply wf_treeb_spec. vm_compute. reflexivity. Qed.
Definition nfs_table : list mntent := [Mnt "/" "ext4"; Mnt "/home" "ext4"; Mnt "/home" "nfs4"].
Theorem C69_refuted : ¬ C69_full.
Proof.
  intros H. pose proof (H 18%N setuid_cred nfs_table [] "/home/u/box" user_u nfs_fs ["home"] ["home"; "u"; "box"] wf_nfs eq_refl) as H1.
  clear H. specialize (H1 ltac:(refine (bool_decide_unpack _ _); vm_compute; exact I)).
  assert (find_mount_point nfs_fs (comps "/home/u/box") = Ok ["home"]) as E1 by (vm_compute; reflexivity).
  assert (o_res (resolve_storage 18 setuid_cred nfs_table [] (Some "/home/u/box") user_u nfs_fs) = Ok ["home"; "u"; "box"]) as E2
    by (vm_compute; reflexivity).
  destruct (H1 E1 E2) as (t & Ht & Hin).
  assert (visible_type nfs_table ["home"] = Some "nfs4") as E3 by (vm_compute; reflexivity).
  rewrite E3 in Ht. injection Ht as <-. rewrite !elem_of_cons, elem_of_nil in Hin. intuition discriminate.
Qed.
Print Assumptions C69_refuted.
(** Proved if no other line has the same text for its directory. *)
Theorem C69_supported_filesystem_partial : ∀ umask c table cwd s u f mp p m,
  wf_tree f → ".." ∉ comps s → find_mount_point f (comps s) = Ok mp →
  filter (λ m, lossy (mnt_dir m) = lossy (path_str mp)) table = [m] → mnt_dir m = path_str mp →
  o_res (resolve_storage umask c table cwd (Some s) u f) = Ok p →
  ∃ t, visible_type table mp = Some t ∧ t ∈ ["btrfs"; "ext4"; "tmpfs"; "xfs"; "zfs"].
Proof.
  intros umask c table cwd s u f mp p m Hwf Hdd Hmp Hone Hm H.
  unfold resolve_storage in H. cbn [proposals first_storage] in H. unfold bind_ in H. cbv zeta in H.
  destruct (try_storage_safe umask (ugh_uid u) (ugh_gid u) c table cwd s f Hwf Hdd) as (_ & _ & R & _).
  destruct (o_res (try_storage umask (ugh_uid u) (ugh_gid u) c table cwd s f)) as [[p'|]|e] eqn:E.
  - destruct (R p' eq_refl) as (_ & -> & (mp' & t & Hmp' & Ht & Hin) & _).
    assert (mp' = mp) as -> by congruence. exists t. split; [|exact Hin].
    unfold mount_type in Ht. rewrite Hone in Ht. cbn in Ht. injection Ht as <-.
    unfold visible_type.
    assert (filter (λ m, mnt_dir m = path_str mp) table = [m]) as ->; [|done].
    clear - Hone Hm. revert Hone. induction table as [|x l IH]; [done|]. rewrite !filter_cons.
    destruct (decide (lossy (mnt_dir x) = lossy (path_str mp))) as [Hx|Hx].
    + intros [= -> Hnil]. rewrite decide_True by done. f_equal.
      assert (∀ y, y ∈ l → mnt_dir y ≠ path_str mp) as Hno.
      { intros y Hy Hd. assert (y ∈ filter (λ m, lossy (mnt_dir m) = lossy (path_str mp)) l) as Hf.
        { apply elem_of_list_filter. split; [by rewrite Hd|done]. }
        rewrite Hnil in Hf. by apply elem_of_nil in Hf. }
      clear - Hno. induction l as [|y l IH]; [done|]. rewrite filter_cons, decide_False.
      * apply IH. intros z Hz. apply Hno, elem_of_cons. by right.
      * apply Hno, elem_of_cons. by left.
    + intros Hrest. rewrite decide_False; [by apply IH|]. intros Hd. apply Hx. by rewrite Hd.
  - cbn in H. discriminate H.
  - cbn in H. discriminate H.
Qed.
Print Assumptions C69_supported_filesystem_partial.
Example C69_nonvacuous :
  let table := [Mnt "/" "xfs"; Mnt "/home" "ext4"; Mnt "/proc" "proc"] in
  find_mount_point nfs_fs (comps "/home/u/box") = Ok ["home"] ∧
  filter (λ m, lossy (mnt_dir m) = lossy (path_str ["home"])) table = [Mnt "/home" "ext4"] ∧
  o_res (resolve_storage 18 setuid_cred table [] (Some "/home/u/box") user_u nfs_fs) = Ok ["home"; "u"; "box"].
Proof. vm_compute. auto. Qed.
