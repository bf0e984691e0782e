(** * Consequences of the accept invariant, stated on every state of a run. *)
From Verif Require Export Checkers Refuse.

Section run.
  Context (e : env) (f : fs) (ub : path) (ms : list path) (inc : bool) (pats : list string) (sel : list change).
  Context (Hok : sandbox_ok f ub ms) (He : env_ok e) (Hfu : fresh_uuids e f).
  Context (Hsel : selected e f ub inc pats = Ok sel).
  Let o := accept e ub inc pats f.

  Let Hplan : plan e ub f sel := proj1 (selected_plan f ub ms Hok e Hfu inc pats sel He Hsel).
  Let Hl : ∀ c, c ∈ sel → lists f ub ms c := proj2 (selected_plan f ub ms Hok e Hfu inc pats sel He Hsel).

  Lemma staged_under_ub p : p ∈ staged_paths sel → under ub p = true.
  Proof.
    intros Hp. apply elem_of_staged_paths in Hp as (c & st & Hc & _ & Hst & ->).
    by destruct (pl_staged _ _ _ _ Hplan c st Hc Hst) as (n & _ & _ & Hu).
  Qed.

  Lemma run_states st : st ∈ states o → run_inv e f sel (staged_paths sel) st.
  Proof.
    destruct (accept_run e f ub inc pats sel He Hsel Hplan) as [H _]. intros Hs.
    by apply (proj1 (Forall_forall _ _) H).
  Qed.

  Lemma cleaning_outside s2 st q : cleaning s2 (staged_paths sel) st → under ub q = false → st !! q = s2 !! q.
  Proof.
    intros [_ H] Hu. destruct (H q) as [?|[_ (p & Hp & Hup)]]; [done|].
    apply staged_under_ub in Hp. assert (under ub q = true); [by eapply under_trans|congruence].
  Qed.

  Lemma run_host st : st ∈ states o → ∃ s2, inv e f sel s2 ∧ ∀ q, under ub q = false → st !! q = s2 !! q.
  Proof.
    intros Hs. destruct (run_states st Hs) as [Hi|(s2 & Hi & _ & Hc)].
    - by exists st.
    - exists s2. split; [done|]. intros q. by apply cleaning_outside.
  Qed.

  Lemma run_frame st q : st ∈ states o → under ub q = false → (∀ c, c ∈ sel → ¬ target e c q) → st !! q = f !! q.
  Proof.
    intros Hs Hu Hn. destruct (run_host st Hs) as (s2 & Hi & H). rewrite H by done.
    apply (inv_frame _ _ _ _ Hi). intros (c & Hc & Ht). by apply (Hn c).
  Qed.

  Lemma touches_dest c q : c ∈ sel → touches c q → q = c_dest c.
  Proof.
    intros Hc [(Ho & d & Hd & ->)|[_ ->]]; [|done].
    destruct (Hl c Hc) as (m & s & n & _ & _ & [(_ & q & k & _ & _ & ->)|[(_ & _ & ->)|(_ & _ & ->)]]); try done.
    cbn in Hd. by injection Hd as <-.
  Qed.

  (** A change that is carried out names the path it is about. *)
  Lemma dest_touched c : c ∈ sel → (∀ er, c_op c ≠ OError er) → touches c (c_dest c).
  Proof.
    intros Hc Hne. destruct (Hl c Hc) as (m & s & n & _ & _ & [(_ & q & k & _ & _ & ->)|[(_ & _ & ->)|(_ & _ & ->)]]).
    - left. split; [done|]. by eexists.
    - right. split; [by eexists|done].
    - by destruct (Hne UnsupportedFileType).
  Qed.

  Lemma frame st q : st ∈ states o → under ub q = false → (∀ c, c ∈ sel → c_dest c ≠ q) →
    (∀ c i, c ∈ sel → q ≠ with_extension (c_dest c) (e_uuid e 3 i)) → st !! q = f !! q.
  Proof.
    intros Hs Hu Hd Ht. apply run_frame; [done|done|]. intros c Hc [H|(_ & _ & i & H)].
    - apply (Hd c Hc). symmetry. by apply touches_dest.
    - by apply (Ht c i Hc).
  Qed.

  Lemma final_ok : is_ok (o_res o) = true → ∃ s2, inv e f sel s2 ∧ complete f sel s2 ∧
     cleaned s2 (staged_paths sel) (staged_paths sel) (o_fs o).
  Proof. destruct (accept_run e f ub inc pats sel He Hsel Hplan) as [_ H]. done. Qed.

  Lemma final_frame q : is_ok (o_res o) = true → under ub q = false →
    (∀ c, c ∈ sel → c_dest c ≠ q) → o_fs o !! q = f !! q.
  Proof.
    intros Hoks Hu Hd. destruct (final_ok Hoks) as (s2 & Hi & (_ & _ & Hrest) & [Hcl _]).
    rewrite (cleaning_outside s2) by done. apply Hrest.
    - intros c Hc _ ->. by apply (Hd c).
    - intros (c & Hc & Hr). apply (Hd c Hc). symmetry. apply touches_dest; [done|]. by left.
  Qed.

  Lemma final_set c nst : is_ok (o_res o) = true → c ∈ sel → is_set c →
    (∀ st, c_staged c = Some st → f !! d_path st = Some nst) →
    ∃ n, o_fs o !! c_dest c = Some n ∧ same_entry nst n.
  Proof.
    intros Hoks Hc Hsc Hn. destruct (final_ok Hoks) as (s2 & Hi & (_ & Hset & _) & [Hcl _]).
    destruct (Hset c Hc Hsc) as (st & n0 & n & Est & E0 & Hd & Hse & _). rewrite (Hn st Est) in E0. injection E0 as <-.
    exists n. split; [|done]. rewrite (cleaning_outside s2); [done|done|].
    apply (pl_outside _ _ _ _ Hplan c _ Hc). left. by right.
  Qed.

  (** The extended attributes of what was installed. *)
  Lemma final_attrs c nst : is_ok (o_res o) = true → c ∈ sel → is_set c →
    (∀ st, c_staged c = Some st → f !! d_path st = Some nst) →
    ∃ n, o_fs o !! c_dest c = Some n ∧
      (removed sel (c_dest c) → attrs_kept None nst n) ∧ (¬ removed sel (c_dest c) → attrs_kept (f !! c_dest c) nst n).
  Proof.
    intros Hoks Hc Hsc Hn. destruct (final_ok Hoks) as (s2 & Hi & (_ & Hset & _) & [Hcl _]).
    destruct (Hset c Hc Hsc) as (st & n0 & n & Est & E0 & Hd & _ & Ha). rewrite (Hn st Est) in E0. injection E0 as <-.
    exists n. split; [|done]. rewrite (cleaning_outside s2); [done|done|].
    apply (pl_outside _ _ _ _ Hplan c _ Hc). left. by right.
  Qed.

  Lemma final_removed c q : is_ok (o_res o) = true → c ∈ sel → removes c q →
    (∀ c', c' ∈ sel → is_set c' → q ≠ c_dest c') → o_fs o !! q = None.
  Proof.
    intros Hoks Hc Hr Hn. destruct (final_ok Hoks) as (s2 & Hi & (_ & _ & Hrest) & [Hcl _]).
    rewrite (cleaning_outside s2); [|done|].
    - apply Hrest; [done|]. by exists c.
    - apply (pl_outside _ _ _ _ Hplan c _ Hc). left. by left.
  Qed.

  Lemma staged_intact st q : st ∈ states o → under ub q = true →
    (∀ p, p ∈ staged_paths sel → under p q = false) → st !! q = f !! q.
  Proof.
    intros Hs Hu Hn.
    assert (∀ s, inv e f sel s → s !! q = f !! q) as Hub.
    { intros s Hi. apply (inv_frame _ _ _ _ Hi). intros (c & Hc & Ht).
      apply (pl_outside _ _ _ _ Hplan c q Hc) in Ht. congruence. }
    destruct (run_states st Hs) as [Hi|(s2 & Hi & _ & [_ Hc])]; [by apply Hub|].
    destruct (Hc q) as [->|[_ (p & Hp & Hup)]]; [by apply Hub|]. rewrite Hn in Hup; done.
  Qed.

  Lemma staged_until_complete st : st ∈ states o →
    (∀ q, under ub q = true → st !! q = f !! q) ∨
    ((∀ c, c ∈ sel → is_set c → ∃ d nst n, c_staged c = Some d ∧ f !! d_path d = Some nst ∧
        st !! c_dest c = Some n ∧ same_entry nst n) ∧
     (∀ c q, c ∈ sel → removes c q → (∀ c', c' ∈ sel → is_set c' → q ≠ c_dest c') → st !! q = None)).
  Proof.
    intros Hs. destruct (run_states st Hs) as [Hi|(s2 & Hi & (_ & Hset & Hrest) & Hcl)].
    - left. intros q Hu. apply (inv_frame _ _ _ _ Hi). intros (c & Hc & Ht).
      apply (pl_outside _ _ _ _ Hplan c q Hc) in Ht. congruence.
    - right. split.
      + intros c Hc Hsc. destruct (Hset c Hc Hsc) as (d & n0 & n & Est & E0 & Hd & Hse & _).
        exists d, n0, n. split; [done|]. split; [done|]. split; [|done].
        rewrite (cleaning_outside s2); [done|done|]. apply (pl_outside _ _ _ _ Hplan c _ Hc). left. by right.
      + intros c q Hc Hr Hn. rewrite (cleaning_outside s2); [|done|].
        * apply Hrest; [done|]. by exists c.
        * apply (pl_outside _ _ _ _ Hplan c _ Hc). left. by left.
  Qed.

  Lemma atomic st c d n content : st ∈ states o → c ∈ sel → is_set c → c_staged c = Some d →
    f !! d_path d = Some n → n_kind n = KFile content →
    st !! c_dest c = f !! c_dest c ∨ (st !! c_dest c = None ∧ removed sel (c_dest c)) ∨
    ∃ k, st !! c_dest c = Some k ∧ n_kind k = KFile content.
  Proof.
    intros Hs Hc Hsc Hd Hn Hk. destruct (run_host st Hs) as (s2 & Hi & H).
    rewrite H; [|apply (pl_outside _ _ _ _ Hplan c _ Hc); left; by right].
    eapply (inv_atomic _ _ _ _ Hi c d n content); done.
  Qed.
End run.
