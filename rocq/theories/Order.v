(** * The comparators are orders, and what sorted order gives the loops. *)
From Verif Require Export Accept.

Lemma path_cmp_preorder : cmp_preorder path_cmp.
Proof. apply cmp_total_preorder, path_cmp_total. Qed.

Lemma cmp_flip {A : Type} (cmp : A → A → comparison) : cmp_preorder cmp → cmp_preorder (λ a b, cmp b a).
Proof.
  intros [R S T]. split; [done|intros a b; apply S|]. intros a b c H1 H2. by apply (T c b a).
Qed.
Lemma cmp_on {A B : Type} (cmp : B → B → comparison) (g : A → B) :
  cmp_preorder cmp → cmp_preorder (λ a b, cmp (g a) (g b)).
Proof. intros [R S T]. split; [done|done|]. intros a b c. apply T. Qed.

Lemma by_destination_preorder : cmp_preorder by_destination.
Proof. apply (cmp_on path_cmp c_dest), path_cmp_preorder. Qed.
Lemma desc_preorder : cmp_preorder desc.
Proof. apply (cmp_flip path_cmp), path_cmp_preorder. Qed.

Lemma by_reverse_source_preorder : cmp_preorder by_reverse_source.
Proof.
  destruct path_cmp_preorder as [R S T]. unfold by_reverse_source. split.
  - intros a. by destruct (c_source a).
  - intros a b. destruct (c_source a), (c_source b); try done.
  - intros a b c. destruct (c_source a) as [x|], (c_source b) as [y|], (c_source c) as [z|]; try done.
    intros H1 H2. by apply (T _ (d_path y)).
Qed.
Lemma by_staged_descending_preorder : cmp_preorder by_staged_descending.
Proof.
  destruct path_cmp_preorder as [R S T]. unfold by_staged_descending. split.
  - intros a. by destruct (c_staged a).
  - intros a b. destruct (c_staged a), (c_staged b); try done.
  - intros a b c. destruct (c_staged a) as [x|], (c_staged b) as [y|], (c_staged c) as [z|]; try done.
    + intros H1 H2. by apply (T _ (d_path y)).
    + intros H1 H2. by apply (T _ (c_dest b)).
Qed.

(** Position in a sorted list. *)
Lemma sorted_before {A : Type} (cmp : A → A → comparison) (l pre post : list A) x y :
  StronglySorted (cmp_le cmp) l → l = pre ++ x :: post → y ∈ l → y ≠ x → cmp x y = Gt → y ∈ pre.
Proof.
  intros Hs -> Hy Hne Hgt. apply elem_of_app in Hy as [Hy|Hy]; [done|]. exfalso.
  apply elem_of_cons in Hy as [->|Hy]; [done|].
  induction pre as [|a pre IH]; simpl in Hs.
  - apply StronglySorted_inv in Hs as [_ Hall]. rewrite Forall_forall in Hall. by apply (Hall y).
  - apply IH. by apply StronglySorted_inv in Hs as [? _].
Qed.
Lemma sorted_pre {A : Type} (cmp : A → A → comparison) (l pre post : list A) x y :
  StronglySorted (cmp_le cmp) l → l = pre ++ x :: post → y ∈ pre → cmp y x ≠ Gt.
Proof.
  intros Hs -> Hy. induction pre as [|a pre IH]; [by apply elem_of_nil in Hy|].
  simpl in Hs. apply StronglySorted_inv in Hs as [Hs Hall]. rewrite Forall_forall in Hall.
  apply elem_of_cons in Hy as [->|Hy]; [|by apply IH].
  apply Hall. apply elem_of_app. right. left.
Qed.

Lemma path_cmp_above (a : path) c r : path_cmp (a ++ c :: r) a = Gt.
Proof.
  destruct path_cmp_total as [_ S _]. rewrite S, path_cmp_prefix by done. done.
Qed.
