(** * Strings, paths, comparison and stable sorting shared by the whole model.

    Rust's [PathBuf] values handled here are absolute; a path is the list of its components from
    the root.  [PathBuf::cmp] compares component-wise, each component by its bytes
    (std::path, used by /repo/src/sandbox/changes/changes.rs:549-569).  [slice::sort_by] is a
    stable sort; every stable sort of the same list gives the same result, so it is modelled by
    stable insertion sort. *)
From Coq Require Export Ascii String.
From stdpp Require Export prelude strings list sorting gmap fin_maps.
From Coq Require Import NArith.
Open Scope string_scope.
Open Scope nat_scope.
Open Scope list_scope.
Open Scope stdpp_scope.
#[global] Arguments String.append !_ _ : simpl nomatch.

(** ** Byte strings *)

Fixpoint to_bytes (s : string) : list ascii :=
  match s with EmptyString => [] | String c s' => c :: to_bytes s' end.
Fixpoint of_bytes (l : list ascii) : string :=
  match l with [] => EmptyString | c :: l' => String c (of_bytes l') end.

Lemma of_to_bytes s : of_bytes (to_bytes s) = s.
Proof. induction s as [|c s IH]; simpl; [done|by rewrite IH]. Qed.
Lemma to_of_bytes l : to_bytes (of_bytes l) = l.
Proof. induction l as [|c l IH]; simpl; [done|by rewrite IH]. Qed.
Lemma to_bytes_inj s t : to_bytes s = to_bytes t → s = t.
Proof. intros H. by rewrite <-(of_to_bytes s), <-(of_to_bytes t), H. Qed.
Lemma to_bytes_app s t : to_bytes (s +:+ t) = to_bytes s ++ to_bytes t.
Proof. induction s as [|c s IH]; simpl; [done|by rewrite IH]. Qed.
Lemma of_bytes_app l k : of_bytes (l ++ k) = of_bytes l +:+ of_bytes k.
Proof. induction l as [|c l IH]; simpl; [done|by rewrite IH]. Qed.

(** [str::starts_with] *)
Fixpoint starts_with (p s : string) : bool :=
  match p, s with
  | EmptyString, _ => true
  | String a p', String b s' => Ascii.eqb a b && starts_with p' s'
  | String _ _, EmptyString => false
  end.

(** [str::strip_prefix] *)
Fixpoint strip_prefix (p s : string) : option string :=
  match p, s with
  | EmptyString, _ => Some s
  | String a p', String b s' => if Ascii.eqb a b then strip_prefix p' s' else None
  | String _ _, EmptyString => None
  end.

(** [str::contains] for a non-empty or empty needle *)
Fixpoint contains (p s : string) : bool :=
  starts_with p s ||
  match s with EmptyString => false | String _ s' => contains p s' end.

Definition str_rev (s : string) : string := of_bytes (rev (to_bytes s)).

(** [str::ends_with] *)
Definition ends_with (p s : string) : bool := starts_with (str_rev p) (str_rev s).

Lemma starts_with_spec p s : starts_with p s = true ↔ ∃ t, s = p +:+ t.
Proof.
  revert s; induction p as [|a p IH]; intros s; simpl.
  - split; [by exists s|done].
  - destruct s as [|b s].
    + split; [done|intros [t Ht]; done].
    + rewrite andb_true_iff, Ascii.eqb_eq, IH. split.
      * intros [-> [t ->]]. by exists t.
      * intros [t Ht]. injection Ht as -> ->. split; [done|by exists t].
Qed.

Lemma strip_prefix_spec p s t : strip_prefix p s = Some t ↔ s = p +:+ t.
Proof.
  revert s; induction p as [|a p IH]; intros s; simpl.
  - split; congruence.
  - destruct s as [|b s]; [split; done|].
    destruct (Ascii.eqb_spec a b) as [->|Hne].
    + rewrite IH. split; [by intros ->|by injection 1].
    + split; [done|]. intros H. by injection H.
Qed.

Lemma starts_with_refl p : starts_with p p = true.
Proof. apply starts_with_spec. exists "". induction p; simpl; congruence. Qed.

Lemma str_app_nil_r s : s +:+ "" = s.
Proof. induction s; simpl; congruence. Qed.
Lemma str_app_assoc a b c : a +:+ (b +:+ c) = (a +:+ b) +:+ c.
Proof. induction a; simpl; congruence. Qed.

Lemma str_rev_involutive s : str_rev (str_rev s) = s.
Proof. unfold str_rev. by rewrite to_of_bytes, rev_involutive, of_to_bytes. Qed.
Lemma str_rev_app s t : str_rev (s +:+ t) = str_rev t +:+ str_rev s.
Proof. unfold str_rev. by rewrite to_bytes_app, rev_app_distr, of_bytes_app. Qed.

Lemma ends_with_spec p s : ends_with p s = true ↔ ∃ t, s = t +:+ p.
Proof.
  unfold ends_with. rewrite starts_with_spec. split.
  - intros [t Ht]. exists (str_rev t).
    rewrite <-(str_rev_involutive s), Ht, str_rev_app, str_rev_involutive. done.
  - intros [t ->]. exists (str_rev t). by rewrite str_rev_app.
Qed.

Lemma contains_spec p s : contains p s = true ↔ ∃ a b, s = a +:+ p +:+ b.
Proof.
  induction s as [|c s IH]; simpl; rewrite orb_true_iff, starts_with_spec.
  - split.
    + intros [[t Ht]|H]; [exists "", t; done|done].
    + intros (a & b & H). left. destruct a; [by exists b|done].
  - rewrite IH. split.
    + intros [[t Ht]|(a & b & ->)].
      * exists "", t; done.
      * exists (String c a), b; done.
    + intros (a & b & H). destruct a as [|c' a]; simpl in H.
      * left. by exists b.
      * right. injection H as -> ->. by exists a, b.
Qed.

(** ** Comparison functions (Rust's [Ord]) *)

Record cmp_total {A : Type} (cmp : A → A → comparison) : Prop := {
  ct_eq : ∀ a b, cmp a b = Eq ↔ a = b;
  ct_sym : ∀ a b, cmp b a = CompOpp (cmp a b);
  ct_trans : ∀ a b c, cmp a b = Lt → cmp b c = Lt → cmp a c = Lt;
}.

(** What [slice::sort_by] requires of a comparator ("total order" on equivalence classes):
    otherwise the sort may panic (Rust >= 1.81). *)
Record cmp_preorder {A : Type} (cmp : A → A → comparison) : Prop := {
  cp_refl : ∀ a, cmp a a = Eq;
  cp_sym : ∀ a b, cmp b a = CompOpp (cmp a b);
  cp_trans : ∀ a b c, cmp a b ≠ Gt → cmp b c ≠ Gt → cmp a c ≠ Gt;
}.

Lemma cmp_total_refl {A : Type} (cmp : A → A → comparison) a : cmp_total cmp → cmp a a = Eq.
Proof. intros H. by apply (ct_eq _ H). Qed.

Lemma cmp_total_preorder {A : Type} (cmp : A → A → comparison) : cmp_total cmp → cmp_preorder cmp.
Proof.
  intros H. split.
  - intros a. by apply (ct_eq _ H).
  - apply (ct_sym _ H).
  - intros a b c Hab Hbc Hac.
    destruct (cmp a b) eqn:E1; [|..|done].
    + apply (ct_eq _ H) in E1 as ->. done.
    + destruct (cmp b c) eqn:E2; [|..|done].
      * apply (ct_eq _ H) in E2 as ->. congruence.
      * rewrite (ct_trans _ H _ _ _ E1 E2) in Hac. done.
Qed.

Definition ascii_cmp (a b : ascii) : comparison := N.compare (N_of_ascii a) (N_of_ascii b).

Fixpoint list_cmp {A : Type} (cmp : A → A → comparison) (l k : list A) : comparison :=
  match l, k with
  | [], [] => Eq
  | [], _ :: _ => Lt
  | _ :: _, [] => Gt
  | a :: l', b :: k' => match cmp a b with Eq => list_cmp cmp l' k' | o => o end
  end.

Definition str_cmp (s t : string) : comparison := list_cmp ascii_cmp (to_bytes s) (to_bytes t).

Lemma ascii_cmp_total : cmp_total ascii_cmp.
Proof.
  unfold ascii_cmp. split.
  - intros a b. rewrite N.compare_eq_iff. split; [|by intros ->].
    intros H. by rewrite <-(ascii_N_embedding a), <-(ascii_N_embedding b), H.
  - intros a b. by rewrite N.compare_antisym.
  - intros a b c. rewrite !N.compare_lt_iff. lia.
Qed.

Lemma list_cmp_total {A : Type} (cmp : A → A → comparison) :
  cmp_total cmp → cmp_total (list_cmp cmp).
Proof.
  intros H. split.
  - induction a as [|x a IH]; intros [|y b]; simpl; try (split; done).
    destruct (cmp x y) eqn:E.
    + apply (ct_eq _ H) in E as ->. rewrite IH. split; [by intros ->|by injection 1].
    + split; [done|]. injection 1 as -> ->. by rewrite (cmp_total_refl _ y H) in E.
    + split; [done|]. injection 1 as -> ->. by rewrite (cmp_total_refl _ y H) in E.
  - induction a as [|x a IH]; intros [|y b]; simpl; try done.
    rewrite (ct_sym _ H x y). destruct (cmp x y) eqn:E; simpl; [apply IH|done|done].
  - induction a as [|x a IH]; intros [|y b] [|z c]; simpl; try done.
    destruct (cmp x y) eqn:E1; try done.
    + apply (ct_eq _ H) in E1 as ->.
      destruct (cmp y z) eqn:E2; try done. apply IH.
    + intros _. destruct (cmp y z) eqn:E2; try done.
      * apply (ct_eq _ H) in E2 as ->. by rewrite E1.
      * by rewrite (ct_trans _ H _ _ _ E1 E2).
Qed.

Lemma str_cmp_total : cmp_total str_cmp.
Proof.
  pose proof (list_cmp_total _ ascii_cmp_total) as H. unfold str_cmp. split.
  - intros a b. rewrite (ct_eq _ H). split; [apply to_bytes_inj|by intros ->].
  - intros a b. apply (ct_sym _ H).
  - intros a b c. apply (ct_trans _ H).
Qed.

(** ** Paths *)

Notation path := (list string).

Definition path_cmp : path → path → comparison := list_cmp str_cmp.

Lemma path_cmp_total : cmp_total path_cmp.
Proof. apply list_cmp_total, str_cmp_total. Qed.

Lemma list_cmp_prefix {A : Type} (cmp : A → A → comparison) (l k : list A) :
  cmp_total cmp → k ≠ [] → list_cmp cmp l (l ++ k) = Lt.
Proof.
  intros H Hk. induction l as [|x l IH]; simpl.
  - by destruct k.
  - by rewrite (cmp_total_refl _ x H).
Qed.

Lemma path_cmp_prefix (p k : path) : k ≠ [] → path_cmp p (p ++ k) = Lt.
Proof. apply list_cmp_prefix, str_cmp_total. Qed.

(** [Path::display]/[to_string] of an absolute path. *)
Fixpoint join_comps (p : path) : string :=
  match p with
  | [] => ""
  | [c] => c
  | c :: p' => c +:+ "/" +:+ join_comps p'
  end.
Definition path_str (p : path) : string := "/" +:+ join_comps p.

(** Split a string at every occurrence of the byte [c]; always returns a non-empty list. *)
Fixpoint split_on (c : ascii) (s : string) : list string :=
  match s with
  | EmptyString => [""]
  | String a s' =>
      if Ascii.eqb a c then "" :: split_on c s'
      else match split_on c s' with
           | [] => [String a ""]
           | w :: ws => String a w :: ws
           end
  end.

(** [Path::components] without the root: empty and [.] components vanish (std::path docs),
    [..] stays. *)
Definition comps (s : string) : list string :=
  filter (λ c, c ≠ "" ∧ c ≠ ".") (split_on "/" s).

Definition is_abs (s : string) : bool := starts_with "/" s.

(** A component that a directory entry can have. *)
Definition comp_ok (c : string) : Prop :=
  c ≠ "" ∧ c ≠ "." ∧ c ≠ ".." ∧ contains "/" c = false.

Definition comp_okb (c : string) : bool :=
  negb (String.eqb c "") && negb (String.eqb c ".") && negb (String.eqb c "..")
  && negb (contains "/" c).

Lemma comp_okb_spec c : comp_okb c = true ↔ comp_ok c.
Proof.
  unfold comp_okb, comp_ok. rewrite !andb_true_iff, !negb_true_iff, !String.eqb_neq. tauto.
Qed.

(** [Path::parent]: [None] for the root. *)
Definition parent (p : path) : option path :=
  match p with [] => None | _ => Some (removelast p) end.

(** [Path::file_name] of an absolute path without trailing [..]. *)
Definition file_name (p : path) : option string := last p.

Lemma removelast_snoc {A : Type} (p : list A) c : removelast (p ++ [c]) = p.
Proof. rewrite removelast_app; [|done]. simpl. by rewrite app_nil_r. Qed.

Lemma path_snoc_case (p : path) : p = [] ∨ ∃ q c, p = q ++ [c].
Proof. destruct p as [|c q _] using rev_ind; [by left|right; eauto]. Qed.

(** Boolean prefix test on paths: [Path::starts_with]. *)
Definition under (p q : path) : bool := bool_decide (p `prefix_of` q).

Lemma under_spec p q : under p q = true ↔ ∃ s, q = p ++ s.
Proof. unfold under. rewrite bool_decide_eq_true. reflexivity. Qed.

Lemma under_refl p : under p p = true.
Proof. apply under_spec. exists []. by rewrite app_nil_r. Qed.

Lemma under_app p s : under p (p ++ s) = true.
Proof. apply under_spec. by exists s. Qed.

Lemma under_trans p q r : under p q = true → under q r = true → under p r = true.
Proof. rewrite !under_spec. intros [s ->] [t ->]. exists (s ++ t). by rewrite app_assoc. Qed.

Lemma under_false p q : under p q = false ↔ ¬ p `prefix_of` q.
Proof. unfold under. by rewrite bool_decide_eq_false. Qed.

Lemma under_nil p : under [] p = true.
Proof. apply under_spec. by exists p. Qed.

Lemma under_snoc p q c : under p (q ++ [c]) = true ↔ p = q ++ [c] ∨ under p q = true.
Proof.
  rewrite !under_spec. split.
  - intros [s Hs]. destruct (path_snoc_case s) as [->|(s' & c' & ->)].
    + left. by rewrite app_nil_r in Hs.
    + right. rewrite app_assoc in Hs. apply app_inj_tail in Hs as [-> _]. by exists s'.
  - intros [->|[s ->]]; [by exists []; rewrite app_nil_r|]. exists (s ++ [c]). by rewrite app_assoc.
Qed.

Lemma under_comparable p q r :
  under p r = true → under q r = true → under p q = true ∨ under q p = true.
Proof.
  unfold under. rewrite !bool_decide_eq_true. intros H1 H2.
  revert q r H1 H2. induction p as [|x p IH]; intros q r H1 H2.
  - left. apply prefix_nil.
  - destruct q as [|y q]; [right; apply prefix_nil|].
    destruct H1 as [s1 ->]. destruct H2 as [s2 H2]. simpl in H2. injection H2 as -> H2.
    destruct (IH q (p ++ s1)) as [H|H].
    + by exists s1.
    + by exists s2.
    + left. by apply prefix_cons.
    + right. by apply prefix_cons.
Qed.

Lemma under_antisym p q : under p q = true → under q p = true → p = q.
Proof.
  rewrite !under_spec. intros [s Hs] [t Ht]. subst q.
  assert (length (s ++ t) = 0) as Hl.
  { rewrite <-app_assoc in Ht. apply (f_equal length) in Ht. rewrite app_length in Ht. lia. }
  rewrite app_length in Hl. destruct s; [by rewrite app_nil_r|simpl in Hl; lia].
Qed.

(** The path relative to [p], if [q] is below [p]: [Path::strip_prefix]. *)
Fixpoint path_strip (p q : path) : option path :=
  match p, q with
  | [], _ => Some q
  | x :: p', y :: q' => if decide (x = y) then path_strip p' q' else None
  | _ :: _, [] => None
  end.

Lemma path_strip_spec p q s : path_strip p q = Some s ↔ q = p ++ s.
Proof.
  revert q; induction p as [|x p IH]; intros q; simpl.
  - split; congruence.
  - destruct q as [|y q]; [done|]. destruct (decide (x = y)) as [->|Hne].
    + rewrite IH. split; [by intros ->|by injection 1].
    + split; [done|]. intros H. by injection H.
Qed.

Lemma path_strip_app p s : path_strip p (p ++ s) = Some s.
Proof. by apply path_strip_spec. Qed.

Lemma path_strip_None p q : path_strip p q = None ↔ under p q = false.
Proof.
  rewrite under_false. destruct (path_strip p q) as [s|] eqn:E.
  - apply path_strip_spec in E as ->. split; [done|]. intros H. destruct H. by exists s.
  - split; [|done]. intros _ [s ->]. by rewrite path_strip_app in E.
Qed.

Lemma path_strip_under p q : is_Some (path_strip p q) ↔ under p q = true.
Proof.
  rewrite under_spec. split.
  - intros [s Hs]. exists s. by apply path_strip_spec.
  - intros [s ->]. exists s. apply path_strip_app.
Qed.

(** ** Stable sorting *)
Section sort.
  Context {A : Type} (cmp : A → A → comparison).

  (** Insert [x], which preceded all of [l] in the input, before the first element that is not
      smaller: keeps equal elements in input order. *)
  Fixpoint insert_by (x : A) (l : list A) : list A :=
    match l with
    | [] => [x]
    | y :: l' => match cmp x y with Gt => y :: insert_by x l' | _ => x :: l end
    end.

  (** [slice::sort_by] *)
  Definition sort_by (l : list A) : list A := foldr insert_by [] l.

  Definition cmp_le (a b : A) : Prop := cmp a b ≠ Gt.

  Lemma insert_by_perm x l : insert_by x l ≡ₚ x :: l.
  Proof.
    induction l as [|y l IH]; simpl; [done|].
    destruct (cmp x y); [done|done|]. rewrite IH. apply Permutation_swap.
  Qed.

  Lemma sort_by_perm l : sort_by l ≡ₚ l.
  Proof. induction l as [|x l IH]; simpl; [done|]. by rewrite insert_by_perm, IH. Qed.

  Lemma insert_by_sorted x l :
    cmp_preorder cmp → StronglySorted cmp_le l → StronglySorted cmp_le (insert_by x l).
  Proof.
    intros Hc. induction 1 as [|y l Hs IH Hall]; simpl.
    - constructor; [constructor|constructor].
    - destruct (cmp x y) eqn:E.
      1,2: constructor; [by constructor|]; constructor; [unfold cmp_le; by rewrite E|];
        eapply Forall_impl; [apply Hall|]; intros z Hz; unfold cmp_le in *;
        eapply (cp_trans _ Hc); [|exact Hz]; by rewrite E.
      constructor; [done|]. rewrite insert_by_perm. constructor; [|done].
      unfold cmp_le. rewrite (cp_sym _ Hc). by rewrite E.
  Qed.

  Lemma sort_by_sorted l : cmp_preorder cmp → StronglySorted cmp_le (sort_by l).
  Proof.
    intros Hc. induction l as [|x l IH]; simpl; [constructor|by apply insert_by_sorted].
  Qed.

  Lemma elem_of_sort_by x l : x ∈ sort_by l ↔ x ∈ l.
  Proof. by rewrite sort_by_perm. Qed.
End sort.

(** [Vec::dedup]: removes consecutive duplicates. *)
Fixpoint dedup {A : Type} `{EqDecision A} (l : list A) : list A :=
  match l with
  | [] => []
  | x :: l' =>
      match dedup l' with
      | [] => [x]
      | y :: k => if decide (x = y) then y :: k else x :: y :: k
      end
  end.

Lemma elem_of_dedup {A : Type} `{EqDecision A} (l : list A) x : x ∈ dedup l ↔ x ∈ l.
Proof.
  induction l as [|a l IH]; simpl; [done|].
  destruct (dedup l) as [|y k] eqn:E.
  - rewrite !elem_of_cons, <-IH. done.
  - destruct (decide (a = y)) as [->|Hne]; rewrite !elem_of_cons, <-IH, !elem_of_cons; tauto.
Qed.

Lemma head_dedup {A : Type} `{EqDecision A} (l : list A) : head (dedup l) = head l.
Proof.
  destruct l as [|a l]; simpl; [done|]. destruct (dedup l) as [|y k]; [done|].
  by destruct (decide (a = y)) as [->|].
Qed.

(** A sorted list without equal neighbours has no duplicates at all. *)
Lemma dedup_sorted_NoDup {A : Type} `{EqDecision A} (R : A → A → Prop) (l : list A) :
  (∀ a b, R a b → R b a → a = b) →
  StronglySorted R l → StronglySorted R (dedup l) ∧ NoDup (dedup l).
Proof.
  intros Hanti. induction 1 as [|a l Hs [IHs IHn] Hall]; simpl; [split; constructor|].
  assert (Forall (R a) (dedup l)) as Hall'.
  { apply Forall_forall. intros x Hx. rewrite elem_of_dedup in Hx.
    by apply (proj1 (Forall_forall _ _) Hall). }
  destruct (dedup l) as [|y k] eqn:E.
  - split; [repeat constructor|repeat constructor; set_solver].
  - destruct (decide (a = y)) as [->|Hne]; [done|].
    split; [by constructor|]. constructor; [|done].
    intros Hin. apply elem_of_cons in Hin as [->|Hin]; [done|].
    apply StronglySorted_inv in IHs as [_ Hyk].
    pose proof (proj1 (Forall_forall _ _) Hyk _ Hin) as Hya.
    pose proof (proj1 (Forall_forall _ _) Hall' y ltac:(left)) as Hay.
    by destruct Hne; apply Hanti.
Qed.
