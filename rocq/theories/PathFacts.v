(** * Paths as strings and back. *)
From Verif Require Export Base.

Lemma contains_cons_false (a : ascii) (s : string) :
  contains "/" (String a s) = false → a ≠ "/"%char ∧ contains "/" s = false.
Proof.
  simpl. rewrite orb_false_iff. intros [H1 H2]. split; [|done].
  intros ->. simpl in H1. by destruct s.
Qed.

Lemma split_on_noslash (s : string) : contains "/" s = false → split_on "/" s = [s].
Proof.
  induction s as [|a s IH]; intros H; [done|].
  apply contains_cons_false in H as [Ha Hs]. cbn [split_on].
  destruct (Ascii.eqb_spec a "/"); [done|]. by rewrite IH.
Qed.

Lemma split_on_slash (s t : string) : contains "/" s = false →
  split_on "/" (s +:+ "/" +:+ t) = s :: split_on "/" t.
Proof.
  induction s as [|a s IH]; intros H; [done|].
  apply contains_cons_false in H as [Ha Hs].
  change (String a s +:+ "/" +:+ t) with (String a (s +:+ "/" +:+ t)).
  cbn [split_on]. destruct (Ascii.eqb_spec a "/"); [done|]. by rewrite IH.
Qed.

Lemma split_on_join (p : path) : p ≠ [] → Forall comp_ok p → split_on "/" (join_comps p) = p.
Proof.
  intros Hp Hf. induction p as [|c p IH]; [done|]. apply Forall_cons in Hf as [Hc Hf].
  destruct p as [|d p].
  - simpl. apply split_on_noslash, Hc.
  - change (join_comps (c :: d :: p)) with (c +:+ "/" +:+ join_comps (d :: p)).
    rewrite split_on_slash by apply Hc. by rewrite IH.
Qed.

Lemma filter_comps_id (p : path) : Forall comp_ok p → filter (λ c, c ≠ "" ∧ c ≠ ".") p = p.
Proof.
  induction p as [|c p IH]; intros H; [done|]. apply Forall_cons in H as [Hc H].
  rewrite filter_cons_True; [by rewrite IH|]. split; apply Hc.
Qed.

(** The text of a path, split again, gives the path. *)
Lemma comps_path_str (p : path) : Forall comp_ok p → comps (path_str p) = p.
Proof.
  intros H. unfold comps, path_str. change ("/" +:+ join_comps p) with (String "/" (join_comps p)).
  cbn [split_on]. rewrite Ascii.eqb_refl. rewrite filter_cons_False by tauto.
  destruct p as [|c p]; [done|]. rewrite split_on_join by done. by apply filter_comps_id.
Qed.

Lemma path_str_inj (p q : path) : Forall comp_ok p → Forall comp_ok q → path_str p = path_str q → p = q.
Proof. intros Hp Hq E. rewrite <-(comps_path_str p), <-(comps_path_str q) by done. by rewrite E. Qed.

Lemma join_comps_cons c p : p ≠ [] → join_comps (c :: p) = c +:+ "/" +:+ join_comps p.
Proof. by destruct p. Qed.
Lemma join_comps_app (a b : path) : a ≠ [] → b ≠ [] →
  join_comps (a ++ b) = join_comps a +:+ "/" +:+ join_comps b.
Proof.
  intros Ha Hb. induction a as [|c a IH]; [done|]. destruct a as [|d a].
  - simpl app. by rewrite join_comps_cons.
  - change ((c :: d :: a) ++ b) with (c :: ((d :: a) ++ b)).
    rewrite (join_comps_cons c ((d :: a) ++ b)) by done. rewrite (join_comps_cons c (d :: a)) by done.
    rewrite IH by done. by rewrite !str_app_assoc.
Qed.

(** Splitting is compatible with appending after a slash. *)
Lemma split_on_app (c : ascii) (s t : string) :
  split_on c (s +:+ String c t) = split_on c s ++ split_on c t.
Proof.
  induction s as [|a s IH]; simpl; [by rewrite Ascii.eqb_refl|].
  destruct (Ascii.eqb a c); [by rewrite IH|]. rewrite IH.
  destruct (split_on c s) eqn:E; [|done]. exfalso. destruct s as [|b s]; [done|]. simpl in E.
  destruct (Ascii.eqb b c); [done|]. by destruct (split_on c s).
Qed.

(** "[p] starts with the text of [a] and a slash" means strictly below [a]. *)
Lemma starts_with_dir (a p : path) : a ≠ [] → Forall comp_ok a → Forall comp_ok p →
  starts_with (path_str a +:+ "/") (path_str p) = true ↔ ∃ r, r ≠ [] ∧ p = a ++ r.
Proof.
  intros Ha Hfa Hfp. rewrite starts_with_spec. split.
  - intros [t E]. assert (comps (path_str p) = a ++ comps t) as Ec.
    { rewrite E, <-str_app_assoc. unfold comps at 1.
      change (path_str a +:+ "/" +:+ t) with (path_str a +:+ String "/" t).
      rewrite split_on_app, filter_app. by rewrite <-(comps_path_str a) at 2. }
    rewrite comps_path_str in Ec by done. exists (comps t). split; [|done].
    intros Et. rewrite Et, app_nil_r in Ec. subst p.
    apply (f_equal String.length) in E. rewrite <-str_app_assoc in E.
    assert (∀ x y, String.length (x +:+ y) = String.length x + String.length y) as Hlen.
    { intros x y. induction x; simpl; [done|]. f_equal. done. }
    rewrite Hlen in E. simpl in E. lia.
  - intros (r & Hr & ->). exists (join_comps r). unfold path_str.
    rewrite join_comps_app by done. by rewrite !str_app_assoc.
Qed.
