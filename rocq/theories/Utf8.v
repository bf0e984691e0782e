(** * UTF-8 validity: [String::from_utf8] (changes.rs:301), [Path::to_str] (changes.rs:392),
    [read_to_string] (changes.rs:458).  Unicode 15, table 3-7. *)
From Verif Require Export Base.

Definition byte (c : ascii) : N := N_of_ascii c.
Definition in_rng (lo hi : N) (c : ascii) : bool := (N.leb lo (byte c) && N.leb (byte c) hi)%N.
Definition cont (c : ascii) : bool := in_rng 128 191 c.

Fixpoint utf8_bytes (l : list ascii) : bool :=
  match l with
  | [] => true
  | a :: r =>
      if in_rng 0 127 a then utf8_bytes r
      else if in_rng 194 223 a then
        match r with b :: r' => cont b && utf8_bytes r' | _ => false end
      else if in_rng 224 239 a then
        match r with
        | b :: c :: r' =>
            (if N.eqb (byte a) 224 then in_rng 160 191 b
             else if N.eqb (byte a) 237 then in_rng 128 159 b else cont b)
            && cont c && utf8_bytes r'
        | _ => false
        end
      else if in_rng 240 244 a then
        match r with
        | b :: c :: d :: r' =>
            (if N.eqb (byte a) 240 then in_rng 144 191 b
             else if N.eqb (byte a) 244 then in_rng 128 143 b else cont b)
            && cont c && cont d && utf8_bytes r'
        | _ => false
        end
      else false
  end.

Definition utf8_valid (s : string) : bool := utf8_bytes (to_bytes s).

Definition ascii_only (s : string) : bool := forallb (in_rng 0 127) (to_bytes s).

Lemma ascii_only_utf8 s : ascii_only s = true → utf8_valid s = true.
Proof.
  unfold ascii_only, utf8_valid. induction (to_bytes s) as [|a l IH]; [done|].
  cbn [forallb]. rewrite andb_true_iff. intros [H1 H2].
  cbn [utf8_bytes]. rewrite H1. by apply IH.
Qed.

Example utf8_ok : utf8_valid (of_bytes [ascii_of_nat 195; ascii_of_nat 169]) = true.
Proof. reflexivity. Qed.
Example utf8_bad : utf8_valid (of_bytes [ascii_of_nat 255]) = false.
Proof. reflexivity. Qed.

(** ** Lossy conversion *)
(** [String::from_utf8_lossy]: every maximal ill-formed part becomes U+FFFD. [lossy_len] is the length
    of the ill-formed part at the front. *)
Definition good_second (a b : ascii) : bool :=
  if N.eqb (byte a) 224 then in_rng 160 191 b
  else if N.eqb (byte a) 237 then in_rng 128 159 b
  else if N.eqb (byte a) 240 then in_rng 144 191 b
  else if N.eqb (byte a) 244 then in_rng 128 143 b
  else cont b.
Definition lossy_step (l : list ascii) : option (bool * nat) := (* well-formed?, length *)
  match l with
  | [] => None
  | a :: r =>
      if in_rng 0 127 a then Some (true, 1)
      else if in_rng 194 223 a then
        match r with b :: _ => if cont b then Some (true, 2) else Some (false, 1) | [] => Some (false, 1) end
      else if in_rng 224 239 a then
        match r with
        | b :: r' => if good_second a b then
                       match r' with c :: _ => if cont c then Some (true, 3) else Some (false, 2)
                                | [] => Some (false, 2) end
                     else Some (false, 1)
        | [] => Some (false, 1) end
      else if in_rng 240 244 a then
        match r with
        | b :: r' => if good_second a b then
                       match r' with
                       | c :: r'' => if cont c then
                                       match r'' with d :: _ => if cont d then Some (true, 4) else Some (false, 3)
                                                 | [] => Some (false, 3) end
                                     else Some (false, 2)
                       | [] => Some (false, 2) end
                     else Some (false, 1)
        | [] => Some (false, 1) end
      else Some (false, 1)
  end.
Definition replacement : list ascii := [ascii_of_N 239; ascii_of_N 191; ascii_of_N 189].
Fixpoint lossy_bytes (fuel : nat) (l : list ascii) : list ascii :=
  match fuel with
  | O => []
  | S n =>
      match lossy_step l with
      | None => []
      | Some (true, k) => take k l ++ lossy_bytes n (drop k l)
      | Some (false, k) => replacement ++ lossy_bytes n (drop k l)
      end
  end.
Definition lossy (s : string) : string := of_bytes (lossy_bytes (length (to_bytes s)) (to_bytes s)).

Lemma lossy_step_valid (a : ascii) (r : list ascii) : utf8_bytes (a :: r) = true →
  ∃ k, lossy_step (a :: r) = Some (true, S k) ∧ utf8_bytes (drop (S k) (a :: r)) = true ∧ S k ≤ length (a :: r).
Proof.
  cbn [utf8_bytes lossy_step].
  destruct (in_rng 0 127 a) eqn:E0.
  { intros H. exists 0. split; [done|]. split; [done|]. simpl; lia. }
  destruct (in_rng 194 223 a) eqn:E1.
  { destruct r as [|b r]; [done|]. rewrite andb_true_iff. intros [Hb H]. rewrite Hb.
    exists 1. split; [done|]. split; [done|]. simpl; lia. }
  destruct (in_rng 224 239 a) eqn:E2.
  { destruct r as [|b [|c r]]; [done|done|]. rewrite !andb_true_iff. intros [[Hb Hc] H].
    assert (good_second a b = true) as ->.
    { unfold good_second. destruct (N.eqb (byte a) 224) eqn:Ea; [done|].
      destruct (N.eqb (byte a) 237) eqn:Eb; [done|].
      unfold in_rng in E2. apply andb_true_iff in E2 as [_ E2]. apply N.leb_le in E2.
      assert (N.eqb (byte a) 240 = false) as -> by (apply N.eqb_neq; lia).
      assert (N.eqb (byte a) 244 = false) as -> by (apply N.eqb_neq; lia). done. }
    rewrite Hc. exists 2. split; [done|]. split; [done|]. simpl; lia. }
  destruct (in_rng 240 244 a) eqn:E3; [|done].
  destruct r as [|b [|c [|d r]]]; [done|done|done|]. rewrite !andb_true_iff. intros [[[Hb Hc] Hd] H].
  assert (good_second a b = true) as ->.
  { unfold good_second. unfold in_rng in E3. apply andb_true_iff in E3 as [E3 _]. apply N.leb_le in E3.
    assert (N.eqb (byte a) 224 = false) as -> by (apply N.eqb_neq; lia).
    assert (N.eqb (byte a) 237 = false) as -> by (apply N.eqb_neq; lia).
    destruct (N.eqb (byte a) 240); [done|]. destruct (N.eqb (byte a) 244); done. }
  rewrite Hc, Hd. exists 3. split; [done|]. split; [done|]. simpl; lia.
Qed.
Lemma lossy_valid (s : string) : utf8_valid s = true → lossy s = s.
Proof.
  unfold utf8_valid, lossy. intros H. rewrite <-(of_to_bytes s) at 3. f_equal.
  revert H. generalize (to_bytes s) as l. intros l. assert (length l ≤ length l) as Hl by lia.
  revert Hl. generalize (length l) at 2 3 as n. intros n. revert l. induction n as [|n IH]; intros l Hl H.
  - destruct l; [done|simpl in Hl; lia].
  - destruct l as [|a r]; [done|]. destruct (lossy_step_valid a r H) as (k & E & Hv & Hk).
    cbn [lossy_bytes]. rewrite E. rewrite IH; [|rewrite drop_length; simpl in *; lia|done].
    apply take_drop.
Qed.

(** ** Joining and splitting *)
Lemma utf8_split (a b : list ascii) (x : ascii) : in_rng 0 127 x = true → utf8_bytes (a ++ x :: b) = true →
  utf8_bytes a = true ∧ utf8_bytes b = true.
Proof.
  intros Hx. assert (length a ≤ length a) as Hl by lia. revert Hl. generalize (length a) at 2 as n. intros n.
  assert (∀ lo hi, (128 <= lo)%N → in_rng lo hi x = false) as Hno.
  { intros lo hi Hlo. unfold in_rng in *. apply andb_true_iff in Hx as [_ Hx]. apply N.leb_le in Hx.
    assert (N.leb lo (byte x) = false) as -> by (apply N.leb_gt; lia). done. }
  assert (cont x = false) as Hc by (apply Hno; lia).
  revert a. induction n as [|n IH]; intros a Hl H.
  { destruct a; [|simpl in Hl; lia]. cbn [app utf8_bytes] in H. by rewrite Hx in H. }
  destruct a as [|a r]; [cbn [app utf8_bytes] in H; by rewrite Hx in H|].
  cbn [length] in Hl. cbn [app utf8_bytes] in H. cbn [utf8_bytes].
  destruct (in_rng 0 127 a) eqn:E0; [apply IH in H; [done|lia]|].
  destruct (in_rng 194 223 a) eqn:E1.
  { destruct r as [|c r]; cbn [app] in H; [by rewrite Hc in H|]. cbn [length] in Hl.
    apply andb_true_iff in H as [H1 H]. rewrite H1. apply IH in H; [done|lia]. }
  destruct (in_rng 224 239 a) eqn:E2.
  { destruct r as [|c [|c' r]]; cbn [app] in H; cbn [length] in Hl.
    - exfalso. destruct b as [|y b]; [done|]. rewrite !andb_true_iff in H. destruct H as [[H _] _].
      destruct (N.eqb (byte a) 224); [by rewrite Hno in H|]. destruct (N.eqb (byte a) 237); [by rewrite Hno in H|]. congruence.
    - exfalso. rewrite !andb_true_iff in H. destruct H as [[_ H] _]. congruence.
    - rewrite !andb_true_iff in H. destruct H as [[H1 H2] H]. apply IH in H as [H H']; [|lia].
      rewrite !andb_true_iff. auto. }
  destruct (in_rng 240 244 a) eqn:E3; [|done].
  destruct r as [|c [|c' [|c'' r]]]; cbn [app] in H; cbn [length] in Hl.
  - exfalso. destruct b as [|y [|y' b]]; [done|done|]. rewrite !andb_true_iff in H. destruct H as [[[H _] _] _].
    destruct (N.eqb (byte a) 240); [by rewrite Hno in H|]. destruct (N.eqb (byte a) 244); [by rewrite Hno in H|]. congruence.
  - exfalso. destruct b as [|y b]; [done|]. rewrite !andb_true_iff in H. destruct H as [[[_ H] _] _]. congruence.
  - exfalso. rewrite !andb_true_iff in H. destruct H as [[_ H] _]. congruence.
  - rewrite !andb_true_iff in H. destruct H as [[[H1 H2] H3] H]. apply IH in H as [H H']; [|lia].
    rewrite !andb_true_iff. auto.
Qed.
Lemma utf8_join (a b : list ascii) : utf8_bytes a = true → utf8_bytes b = true → utf8_bytes (a ++ b) = true.
Proof.
  intros Ha Hb. assert (length a ≤ length a) as Hl by lia. revert Hl. generalize (length a) at 2 as n. intros n.
  revert a Ha. induction n as [|n IH]; intros a Ha Hl; [destruct a; [done|simpl in Hl; lia]|].
  destruct a as [|x r]; [done|]. cbn [length] in Hl. cbn [app utf8_bytes] in *.
  destruct (in_rng 0 127 x); [apply IH; [done|lia]|].
  destruct (in_rng 194 223 x).
  { destruct r as [|c r]; [done|]. cbn [app length] in *. rewrite !andb_true_iff in *. destruct Ha as [H1 H]. split; [done|]. apply IH; [done|lia]. }
  destruct (in_rng 224 239 x).
  { destruct r as [|c [|c' r]]; [done|done|]. cbn [app length] in *. rewrite !andb_true_iff in *. destruct Ha as [H1 H]. split; [done|]. apply IH; [done|lia]. }
  destruct (in_rng 240 244 x); [|done].
  destruct r as [|c [|c' [|c'' r]]]; [done|done|done|]. cbn [app length] in *. rewrite !andb_true_iff in *. destruct Ha as [H1 H]. split; [done|]. apply IH; [done|lia].
Qed.

(** ** Paths all of whose components are valid UTF-8 *)
Definition utf8_path (p : path) : Prop := Forall (λ x, utf8_valid x = true) p.
Lemma lossy_path (p : path) : utf8_path p → lossy <$> p = p.
Proof. induction 1 as [|x p Hx _ IH]; [done|]. cbn. by rewrite IH, lossy_valid. Qed.
Lemma utf8_path_str (p : path) : utf8_path p → utf8_valid (path_str p) = true.
Proof.
  intros H. unfold path_str, utf8_valid. cbn [String.append to_bytes utf8_bytes].
  change (utf8_bytes (to_bytes (join_comps p)) = true). induction H as [|x p Hx Hp IH]; [done|].
  destruct p as [|y p]; [done|]. change (join_comps (x :: y :: p)) with (x +:+ "/" +:+ join_comps (y :: p)).
  rewrite to_bytes_app. apply utf8_join; [done|]. done.
Qed.
Lemma utf8_path_str_app (p q : path) : utf8_valid (path_str p) = true → utf8_path q → utf8_valid (path_str (p ++ q)) = true.
Proof.
  unfold path_str, utf8_valid. cbn [String.append to_bytes utf8_bytes].
  change (utf8_bytes (to_bytes (join_comps p)) = true → utf8_path q → utf8_bytes (to_bytes (join_comps (p ++ q))) = true).
  intros Hp Hq. destruct (decide (q = [])) as [-> |Hne]; [by rewrite app_nil_r|].
  pose proof (utf8_path_str q Hq) as Hq'. unfold path_str, utf8_valid in Hq'. cbn [String.append to_bytes utf8_bytes] in Hq'.
  destruct (decide (p = [])) as [-> |Hpe]; [exact Hq'|].
  assert (join_comps (p ++ q) = join_comps p +:+ "/" +:+ join_comps q) as ->.
  { clear Hp. induction p as [|x p IH]; [done|]. destruct p as [|y p].
    - cbn [app]. destruct q as [|z q]; [done|]. done.
    - change (join_comps ((x :: y :: p) ++ q)) with (x +:+ "/" +:+ join_comps ((y :: p) ++ q)).
      rewrite IH by done. change (join_comps (x :: y :: p)) with (x +:+ "/" +:+ join_comps (y :: p)).
      by rewrite !str_app_assoc. }
  rewrite to_bytes_app. apply utf8_join; [done|exact Hq'].
Qed.
