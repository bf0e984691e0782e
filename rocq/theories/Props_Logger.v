(** * C50: early log messages are neither lost nor reordered *)
From Verif Require Export Logger.

(** The messages logged by a sequence of calls. *)
Definition logged (cs : list log_call) : list message :=
  omap (λ c, match c with Log m => Some m | _ => None end) cs.

Lemma run_app l cs ds : log_run l (cs ++ ds) = log_run (log_run l cs) ds.
Proof. apply foldl_app. Qed.

Lemma run_deferring cs : ∀ l, lg_defer l = true → PrintDeferred ∉ cs →
  lg_output (log_run l cs) = lg_output l ∧ lg_deferred (log_run l cs) = lg_deferred l ++ logged cs ∧
  lg_defer (log_run l cs) = true.
Proof.
  induction cs as [|c cs IH]; intros l Hd Hn.
  - simpl. by rewrite app_nil_r.
  - apply not_elem_of_cons in Hn as [Hc Hn].
    assert (lg_defer (log_step l c) = true) as Hd'.
    { destruct c as [m|n|]; [|done|done]. simpl. unfold log_. by rewrite Hd. }
    destruct (IH (log_step l c) Hd' Hn) as (H1 & H2 & H3).
    change (log_run l (c :: cs)) with (log_run (log_step l c) cs).
    rewrite H1, H2, H3. destruct c as [m|n|]; [|done|done].
    simpl. unfold log_. rewrite Hd. simpl. split; [done|]. split; [|done]. by rewrite <-app_assoc.
Qed.

Lemma run_direct cs : ∀ l L, lg_defer l = false → lg_deferred l = [] → lg_level l = L → (∀ n, SetLevel n ∉ cs) →
  lg_output (log_run l cs) = lg_output l ++ (filter (λ m, m.1 ≤ L) (logged cs)).*2 ∧
  lg_deferred (log_run l cs) = [].
Proof.
  induction cs as [|c cs IH]; intros l L Hd He HL Hn.
  - simpl. by rewrite app_nil_r.
  - assert (∀ n, SetLevel n ∉ cs) as Hn' by (intros n H; by apply (Hn n), elem_of_cons; right).
    change (log_run l (c :: cs)) with (log_run (log_step l c) cs).
    assert (lg_defer (log_step l c) = false ∧ lg_deferred (log_step l c) = [] ∧ lg_level (log_step l c) = L)
      as (H1 & H2 & H3).
    { destruct c as [m|n|].
      - simpl. unfold log_. rewrite Hd. by destruct (admits _ _).
      - by destruct (Hn n); left.
      - done. }
    destruct (IH _ L H1 H2 H3 Hn') as [-> ->]. split; [|done].
    destruct c as [m|n|].
    + simpl. unfold log_, admits. rewrite Hd, HL, filter_cons.
      destruct (Nat.leb_spec m.1 L); destruct (decide (m.1 ≤ L)); try lia; simpl.
      * by rewrite <-app_assoc.
      * done.
    + by destruct (Hn n); left.
    + simpl. rewrite He. simpl. by rewrite app_nil_r.
Qed.

(** For every history [pre] of logging and level changes before the configuration is known, every
    configured level [L] and every later history [post] (more messages, even more requests to
    print deferred messages): nothing is written before the configuration is known, and in the end
    exactly the messages the configured level admits have been written, each as often as it was
    logged, in order. *)
Theorem C50_log_messages_in_order : ∀ l0 pre L post,
  PrintDeferred ∉ pre → (∀ n, SetLevel n ∉ post) →
  lg_output (log_run (new_logger l0) pre) = [] ∧
  lg_output (log_run (new_logger l0) (pre ++ [SetLevel L; PrintDeferred] ++ post)) =
    (filter (λ m, m.1 ≤ L) (logged pre ++ logged post)).*2.
Proof.
  intros l0 pre L post Hpre Hpost.
  destruct (run_deferring pre (new_logger l0) eq_refl Hpre) as (H1 & H2 & H3). split; [done|].
  rewrite run_app.
  change (log_run (log_run (new_logger l0) pre) ([SetLevel L; PrintDeferred] ++ post))
    with (log_run (print_deferred (set_level L (log_run (new_logger l0) pre))) post).
  set (l := log_run (new_logger l0) pre) in *.
  destruct (run_direct post (print_deferred (set_level L l)) L) as [-> _]; try done.
  rewrite filter_app, fmap_app. f_equal. unfold print_deferred, stop_deferring, clear_pending, print_pending, set_level.
  simpl. rewrite H1, H2. simpl. f_equal. apply list_filter_iff. intros m. unfold admits. apply Nat.leb_le.
Qed.
Print Assumptions C50_log_messages_in_order.

Lemma logged_map ms : logged (Log <$> ms) = ms.
Proof. induction ms as [|m ms IH]; [done|]. simpl. f_equal. exact IH. Qed.

(** In particular for the calls [main] makes. *)
Theorem C50_main : ∀ cli cfg L rest l0,
  lg_output (log_run (new_logger l0) (main_calls cli cfg L rest)) = (filter (λ m, m.1 ≤ L) (cfg ++ rest)).*2.
Proof.
  intros cli cfg L rest l0. unfold main_calls. rewrite app_assoc.
  destruct (C50_log_messages_in_order l0 ([SetLevel (match cli with Some n => n | None => INFO end)] ++ (Log <$> cfg))
    L (Log <$> rest)) as [_ ->].
  - intros H. apply elem_of_app in H as [H|H]; [by apply elem_of_list_singleton in H|].
    by apply elem_of_list_fmap in H as (? & ? & _).
  - intros n H. by apply elem_of_list_fmap in H as (? & ? & _).
  - unfold logged at 1. rewrite omap_app. fold (logged (Log <$> cfg)). rewrite !logged_map. done.
Qed.
Print Assumptions C50_main.

Example C50_nonvacuous : lg_output (log_run (new_logger TRACE) (main_calls (Some TRACE)
    [(TRACE, "reading"); (WARN, "odd value"); (INFO, "using")] INFO [(DEBUG, "mount"); (ERROR, "no")]))
  = ["odd value"; "using"; "no"].
Proof. reflexivity. Qed.

(** The stronger claim for several threads logging at once (the program never does this) is false:
    a message logged between the printing and the clearing of the list is lost. *)
Definition C50_concurrent : Prop := ∀ l0 L pre sched m, PrintDeferred ∉ pre → m.1 ≤ L →
  (∃ a b c d, sched = (SLog <$> a) ++ [SPrint] ++ (SLog <$> b) ++ [SClear] ++ (SLog <$> c) ++ [SStop] ++ (SLog <$> d)
     ∧ m ∈ a ++ b ++ c ++ d) →
  m.2 ∈ lg_output (section_run (set_level L (log_run (new_logger l0) pre)) sched).
Theorem C50_concurrent_refuted : ¬ C50_concurrent.
Proof.
  intros H. specialize (H 0 5 [] [SPrint; SLog (1, "lost"); SClear; SStop] (1, "lost")).
  feed specialize H.
  - by intros ?%elem_of_nil.
  - simpl. lia.
  - exists [], [(1, "lost")], [], []. split; [done|]. simpl. left.
  - by apply elem_of_nil in H.
Qed.
Print Assumptions C50_concurrent_refuted.
