(** * C42, C62: the lock *)
From Verif Require Export Lock.

(** In full. *)
Definition C42_full : Prop := ∀ es st p q,
  lsteps l_start es st → holds st p → holds st q → p = q.

(** What is always true of the descriptions. *)
Record linv (st : lstate) : Prop := {
  li_desc : ∀ d x, l_descs st !! d = Some x → (d < l_fresh st)%N ∧ (d_inode x < l_fresh st)%N;
  li_file : ∀ i, l_file st = Some i → (i < l_fresh st)%N;
  li_fd : ∀ p d r, l_fds st !! p = Some (d, r) → is_Some (l_descs st !! d);
  li_ref : ∀ d x, l_descs st !! d = Some x → ∃ p r, l_fds st !! p = Some (d, r);
  li_own : ∀ p q d, l_fds st !! p = Some (d, Command) → l_fds st !! q = Some (d, Command) → p = q;
  li_excl : ∀ d d' i, l_descs st !! d = Some (Desc i true) → l_descs st !! d' = Some (Desc i true) → d = d';
}.

Lemma linv_start : linv l_start.
Proof. split; try done; intros; cbn [l_start l_descs l_fds] in *; by rewrite lookup_empty in *. Qed.

Lemma close_descs (st : lstate) (p d k : N) (x : desc) :
  l_descs (close st p d) !! k = Some x → l_descs st !! k = Some x.
Proof.
  unfold close. cbn [l_descs]. destruct (decide _); [|done]. intros H. by apply lookup_delete_Some in H as [_ H].
Qed.
Lemma close_kept (st : lstate) (p d k q : N) (r : role) (x : desc) :
  l_descs st !! k = Some x → l_fds st !! q = Some (k, r) → q ≠ p → l_descs (close st p d) !! k = Some x.
Proof.
  intros H1 H2 Hne. unfold close. cbn [l_descs]. destruct (decide _) as [E|]; [|done].
  rewrite lookup_delete_ne; [done|]. intros ->.
  assert (filter (refers k) (delete p (l_fds st)) !! q = Some (k, r)) as K.
  { apply map_filter_lookup_Some. split; [by rewrite lookup_delete_ne|done]. }
  rewrite E, lookup_empty in K. done.
Qed.
Lemma linv_close (st : lstate) (p d : N) (r : role) : linv st → l_fds st !! p = Some (d, r) → linv (close st p d).
Proof.
  intros [H1 H2 H3 H4 H5 H6] Hp. split.
  - intros k x Hk. apply close_descs in Hk. by apply H1.
  - done.
  - intros q k r' Hq. cbn [close l_fds] in Hq. apply lookup_delete_Some in Hq as [Hne Hq].
    destruct (H3 q k r' Hq) as [x Hx]. exists x. by eapply close_kept.
  - intros k x Hk. pose proof Hk as Hk'. apply close_descs in Hk'.
    destruct (H4 k x Hk') as (q & r' & Hq). cbn [close l_fds].
    destruct (decide (q = p)) as [-> |Hne].
    + rewrite Hp in Hq. injection Hq as <- <-. cbn [close l_descs] in Hk. destruct (decide _) as [E|E].
      * by rewrite lookup_delete in Hk.
      * apply map_choose in E as (q & [k r'] & Hq). apply map_filter_lookup_Some in Hq as [Hq Hr].
        unfold refers in Hr. cbn [fst snd] in Hr. subst k. by exists q, r'.
    + exists q, r'. by rewrite lookup_delete_ne.
  - intros q q' k Hq Hq'. cbn [close l_fds] in Hq, Hq'. apply lookup_delete_Some in Hq as [_ Hq].
    apply lookup_delete_Some in Hq' as [_ Hq']. by eapply H5.
  - intros k k' i Hk Hk'. apply close_descs in Hk, Hk'. by eapply H6.
Qed.
Lemma unlock_descs (st : lstate) (d k : N) : l_descs (unlock st d) !! k =
  if decide (d = k) then (λ x, Desc (d_inode x) false) <$> l_descs st !! k else l_descs st !! k.
Proof.
  unfold unlock. cbn [l_descs]. destruct (decide (d = k)) as [<-|H]; [by rewrite lookup_alter|by rewrite lookup_alter_ne].
Qed.
Lemma linv_unlock (st : lstate) (d : N) : linv st → linv (unlock st d).
Proof.
  intros [H1 H2 H3 H4 H5 H6]. split.
  - intros k x. rewrite unlock_descs. destruct (decide (d = k)); [|apply H1].
    destruct (l_descs st !! k) as [y|] eqn:E; [|done]. intros H. injection H as <-. by apply (H1 k y).
  - done.
  - intros p k r Hp. rewrite unlock_descs. destruct (H3 p k r Hp) as [x Hx]. rewrite Hx.
    destruct (decide (d = k)); by eexists.
  - intros k x. rewrite unlock_descs. destruct (decide (d = k)); [|apply H4].
    destruct (l_descs st !! k) as [y|] eqn:E; [|done]. intros _. by apply (H4 k y).
  - exact H5.
  - intros k k' i. rewrite !unlock_descs. destruct (decide (d = k)).
    { destruct (l_descs st !! k); done. }
    destruct (decide (d = k')); [destruct (l_descs st !! k'); done|]. apply H6.
Qed.

Lemma linv_step (st : lstate) (e : event) (st' : lstate) : linv st → lstep st e st' → linv st'.
Proof.
  intros Hinv Hstep. pose proof Hinv as [H1 H2 H3 H4 H5 H6].
  destruct Hstep as [st p i Hp Hf|st p Hp Hf|st p d i Hp Hd Hfree|st p c d Hh Hp Hc|st p Hh Hf|st p d Hh Hp|st p d r Hp].
  - assert (l_descs st !! l_fresh st = None) as Hnew.
    { destruct (l_descs st !! l_fresh st) as [x|] eqn:E; [|done]. apply H1 in E. lia. }
    split; cbn [l_file l_fresh l_descs l_fds].
    + intros d x Hd. apply lookup_insert_Some in Hd as [[<- <-]|[_ Hd]].
      * specialize (H2 i Hf). cbn [d_inode]. lia.
      * apply H1 in Hd. lia.
    + intros j Hj. injection Hj as <-. specialize (H2 i Hf). lia.
    + intros q d r Hq. apply lookup_insert_Some in Hq as [[_ Hq]|[_ Hq]].
      * injection Hq as <- <-. rewrite lookup_insert. by eexists.
      * destruct (H3 q d r Hq) as [x Hx]. rewrite lookup_insert_ne; [by eexists|]. intros <-. congruence.
    + intros d x Hd. apply lookup_insert_Some in Hd as [[<- <-]|[Hne Hd]].
      * exists p, Command. by rewrite lookup_insert.
      * destruct (H4 d x Hd) as (q & r & Hq). exists q, r. rewrite lookup_insert_ne; [done|]. intros <-. congruence.
    + intros q q' d Hq Hq'. apply lookup_insert_Some in Hq as [[<- Hq]|[Hne Hq]];
        apply lookup_insert_Some in Hq' as [[<- Hq']|[Hne' Hq']]; [done|..].
      * injection Hq as <-. destruct (H3 _ _ _ Hq') as [x Hx]. congruence.
      * injection Hq' as <-. destruct (H3 _ _ _ Hq) as [x Hx]. congruence.
      * by eapply H5.
    + intros d d' j Hd Hd'. apply lookup_insert_Some in Hd as [[_ Hd]|[_ Hd]]; [done|].
      apply lookup_insert_Some in Hd' as [[_ Hd']|[_ Hd']]; [done|]. by eapply H6.
  - assert (l_descs st !! (l_fresh st + 1)%N = None) as Hnew.
    { destruct (l_descs st !! (l_fresh st + 1)%N) as [x|] eqn:E; [|done]. apply H1 in E. lia. }
    split; cbn [l_file l_fresh l_descs l_fds].
    + intros d x Hd. apply lookup_insert_Some in Hd as [[<- <-]|[_ Hd]]; [cbn [d_inode]; lia|].
      apply H1 in Hd. lia.
    + intros j Hj. injection Hj as <-. lia.
    + intros q d r Hq. apply lookup_insert_Some in Hq as [[_ Hq]|[_ Hq]].
      * injection Hq as <- <-. rewrite lookup_insert. by eexists.
      * destruct (H3 q d r Hq) as [x Hx]. rewrite lookup_insert_ne; [by eexists|]. intros <-. congruence.
    + intros d x Hd. apply lookup_insert_Some in Hd as [[<- <-]|[Hne Hd]].
      * exists p, Command. by rewrite lookup_insert.
      * destruct (H4 d x Hd) as (q & r & Hq). exists q, r. rewrite lookup_insert_ne; [done|]. intros <-. congruence.
    + intros q q' d Hq Hq'. apply lookup_insert_Some in Hq as [[<- Hq]|[Hne Hq]];
        apply lookup_insert_Some in Hq' as [[<- Hq']|[Hne' Hq']]; [done|..].
      * injection Hq as <-. destruct (H3 _ _ _ Hq') as [x Hx]. congruence.
      * injection Hq' as <-. destruct (H3 _ _ _ Hq) as [x Hx]. congruence.
      * by eapply H5.
    + intros d d' j Hd Hd'. apply lookup_insert_Some in Hd as [[_ Hd]|[_ Hd]]; [done|].
      apply lookup_insert_Some in Hd' as [[_ Hd']|[_ Hd']]; [done|]. by eapply H6.
  - split; cbn [l_file l_fresh l_descs l_fds]; try done.
    + intros k x Hk. apply lookup_insert_Some in Hk as [[<- <-]|[_ Hk]]; [|by apply H1].
      by apply (H1 d (Desc i false)).
    + intros q k r Hq. destruct (decide (d = k)) as [<-|]; [rewrite lookup_insert; by eexists|].
      rewrite lookup_insert_ne by done. by eapply H3.
    + intros k x Hk. apply lookup_insert_Some in Hk as [[<- <-]|[_ Hk]]; [|by eapply H4]. by exists p, Command.
    + intros k k' j Hk Hk'. apply lookup_insert_Some in Hk as [[<- Hk]|[_ Hk]];
        apply lookup_insert_Some in Hk' as [[<- Hk']|[_ Hk']]; [done|..].
      * injection Hk as <-. by apply Hfree in Hk'.
      * injection Hk' as <-. by apply Hfree in Hk.
      * by eapply H6.
  - split; cbn [l_file l_fresh l_descs l_fds]; try done.
    + intros q k r Hq. apply lookup_insert_Some in Hq as [[_ Hq]|[_ Hq]]; [|by eapply H3].
      injection Hq as <- <-. by eapply H3.
    + intros k x Hk. destruct (H4 k x Hk) as (q & r & Hq). exists q, r. rewrite lookup_insert_ne; [done|].
      intros <-. congruence.
    + intros q q' k Hq Hq'. apply lookup_insert_Some in Hq as [[_ Hq]|[_ Hq]]; [done|].
      apply lookup_insert_Some in Hq' as [[_ Hq']|[_ Hq']]; [done|]. by eapply H5.
  - split; done.
  - eapply linv_close; [by apply linv_unlock|exact Hp].
  - by eapply linv_close.
Qed.
Lemma linv_steps (es : list event) (st st' : lstate) : linv st → lsteps st es st' → linv st'.
Proof. intros H Hs. induction Hs as [|st e st1 es st2 Hstep _ IH]; [done|]. apply IH. by eapply linv_step. Qed.

(** *** On one and the same file the lock is exclusive, whatever happens: starts, ends, crashes,
    deletions, inherited descriptors. *)
Theorem C42_one_holder_per_file (es : list event) (st : lstate) (p q i : N) :
  lsteps l_start es st → holds_on st p i → holds_on st q i → p = q.
Proof.
  intros Hs (d & H1 & H2) (d' & H1' & H2').
  pose proof (linv_steps _ _ _ linv_start Hs) as Hinv.
  assert (d = d') as <- by (by eapply (li_excl st Hinv)). by eapply (li_own st Hinv).
Qed.
Print Assumptions C42_one_holder_per_file.

(** Without deletions there is one file only. *)
Lemma one_file (es : list event) (st : lstate) :
  lsteps l_start es st → (∀ p, EUnlink p ∉ es) → ∀ d x, l_descs st !! d = Some x → l_file st = Some (d_inode x).
Proof.
  intros Hs Hno.
  assert (∀ st0 es st, lsteps st0 es st → (∀ p, EUnlink p ∉ es) →
    (∀ d x, l_descs st0 !! d = Some x → l_file st0 = Some (d_inode x)) →
    ∀ d x, l_descs st !! d = Some x → l_file st = Some (d_inode x)) as H.
  2: { eapply H; [exact Hs|exact Hno|]. intros d x Hd. cbn [l_start l_descs] in Hd. by rewrite lookup_empty in Hd. }
  clear. intros st0 es st Hs Hno Hinv. induction Hs as [|st e st1 es st2 Hstep _ IH]; [exact Hinv|].
  apply IH; [intros p Hp; apply (Hno p); by right|]. clear IH.
  assert (∀ p, EUnlink p ≠ e) as Hne by (intros p <-; apply (Hno p); left).
  destruct Hstep as [st p i Hp Hf|st p Hp Hf|st p d i Hp Hd Hfree|st p c d Hh Hp Hc|st p Hh Hf|st p d Hh Hp|st p d r Hp];
    intros k x Hk; cbn [l_file l_descs] in *.
  - apply lookup_insert_Some in Hk as [[_ <-]|[_ Hk]]; [done|]. rewrite <-Hf. by eapply Hinv.
  - apply lookup_insert_Some in Hk as [[_ <-]|[_ Hk]]; [done|]. specialize (Hinv _ _ Hk). congruence.
  - apply lookup_insert_Some in Hk as [[_ <-]|[_ Hk]]; [|by eapply Hinv]. by apply (Hinv d (Desc i false)).
  - by eapply Hinv.
  - by destruct (Hne p).
  - apply close_descs in Hk. rewrite unlock_descs in Hk. cbn [close unlock l_file].
    destruct (decide (d = k)); [|by eapply Hinv].
    destruct (l_descs st !! k) as [y|] eqn:E; [|done]. injection Hk as <-. by apply (Hinv k y).
  - apply close_descs in Hk. cbn [close l_file]. by eapply Hinv.
Qed.

(** Proved for histories in which no sandbox of that name is deleted. *)
Theorem C42_mutual_exclusion_partial (es : list event) (st : lstate) (p q : N) :
  lsteps l_start es st → (∀ r, EUnlink r ∉ es) → holds st p → holds st q → p = q.
Proof.
  intros Hs Hno (d & i & H1 & H2) (d' & i' & H1' & H2').
  pose proof (one_file _ _ Hs Hno _ _ H2) as E. pose proof (one_file _ _ Hs Hno _ _ H2') as E'.
  cbn [d_inode] in E, E'. rewrite E in E'. injection E' as <-.
  eapply (C42_one_holder_per_file es st p q i Hs); [by exists d|by exists d'].
Qed.
Print Assumptions C42_mutual_exclusion_partial.

(** With deletions: of two holders at most one holds the lock of the file that is now at the path. *)
Theorem C42_current_file_partial (es : list event) (st : lstate) (p q i : N) :
  lsteps l_start es st → l_file st = Some i → holds_on st p i → holds st q → q ≠ p →
  ∃ j, j ≠ i ∧ holds_on st q j.
Proof.
  intros Hs Hf Hp (d & j & H1 & H2) Hne. exists j. split; [|by exists d]. intros ->.
  apply Hne. eapply (C42_one_holder_per_file es st q p i Hs); [by exists d|done].
Qed.

(** Process 1 holds the lock and deletes the sandbox while process 2 waits; process 3 starts a sandbox
    of the same name; when process 1 is done, process 2 goes on with the lock of the unlinked file. *)
Lemma free_by (m : gmap N desc) (i : N) :
  forallb (λ kd : N * desc, negb (N.eqb (d_inode kd.2) i && d_locked kd.2)) (map_to_list m) = true →
  ∀ d, m !! d ≠ Some (Desc i true).
Proof.
  intros H d Hd. rewrite forallb_forall in H. specialize (H (d, Desc i true)). cbn [snd d_inode d_locked] in H.
  rewrite N.eqb_refl in H. cbn [andb negb] in H. discriminate H.
  apply elem_of_list_In, elem_of_map_to_list, Hd.
Qed.
(** The same steps as a function, to compute example histories. *)
Definition holdsb (st : lstate) (p : N) : bool :=
  match l_fds st !! p with
  | Some (d, Command) => match l_descs st !! d with Some x => d_locked x | None => false end
  | _ => false
  end.
Lemma holdsb_spec (st : lstate) (p : N) : holdsb st p = true → holds st p.
Proof.
  unfold holdsb. destruct (l_fds st !! p) as [[d []]|] eqn:E; [|done..].
  destruct (l_descs st !! d) as [[i b]|] eqn:E'; [|done]. cbn [d_locked]. intros ->. by exists d, i.
Qed.
Definition freeb (m : gmap N desc) (i : N) : bool :=
  forallb (λ kd : N * desc, negb (N.eqb (d_inode kd.2) i && d_locked kd.2)) (map_to_list m).
Definition run_event (st : lstate) (e : event) : option lstate :=
  match e with
  | EOpen p =>
      match l_fds st !! p, l_file st with
      | None, Some i => Some (LState (Some i) (l_fresh st + 1) (<[l_fresh st := Desc i false]> (l_descs st))
           (<[p := (l_fresh st, Command)]> (l_fds st)))
      | None, None => Some (LState (Some (l_fresh st)) (l_fresh st + 2) (<[(l_fresh st + 1)%N := Desc (l_fresh st) false]> (l_descs st))
           (<[p := ((l_fresh st + 1)%N, Command)]> (l_fds st)))
      | _, _ => None
      end
  | EAcquire p =>
      match l_fds st !! p with
      | Some (d, Command) =>
          match l_descs st !! d with
          | Some (Desc i false) => if freeb (l_descs st) i then
              Some (LState (l_file st) (l_fresh st) (<[d := Desc i true]> (l_descs st)) (l_fds st)) else None
          | _ => None
          end
      | _ => None
      end
  | EClone p c =>
      match l_fds st !! p, l_fds st !! c with
      | Some (d, Command), None => if holdsb st p then
          Some (LState (l_file st) (l_fresh st) (l_descs st) (<[c := (d, Child)]> (l_fds st))) else None
      | _, _ => None
      end
  | EUnlink p =>
      match l_file st with
      | Some _ => if holdsb st p then Some (LState None (l_fresh st) (l_descs st) (l_fds st)) else None
      | None => None
      end
  | EDrop p =>
      match l_fds st !! p with
      | Some (d, Command) => if holdsb st p then Some (close (unlock st d) p d) else None
      | _ => None
      end
  | EDie p => match l_fds st !! p with Some (d, r) => Some (close st p d) | None => None end
  end.
Lemma run_event_sound (st st' : lstate) (e : event) : run_event st e = Some st' → lstep st e st'.
Proof.
  destruct e as [p|p|p c|p|p|p]; cbn [run_event].
  - destruct (l_fds st !! p) as [|] eqn:E; [done|]. destruct (l_file st) as [i|] eqn:Ef; intros H; injection H as <-;
      [by apply step_open|by apply step_create].
  - destruct (l_fds st !! p) as [[d []]|] eqn:E; [|done..].
    destruct (l_descs st !! d) as [[i []]|] eqn:Ed; [done| |done].
    destruct (freeb (l_descs st) i) eqn:Ef; [|done]. intros H. injection H as <-.
    eapply step_acquire; [done|done|by apply free_by].
  - destruct (l_fds st !! p) as [[d []]|] eqn:E; [|done..].
    destruct (l_fds st !! c) eqn:Ec; [done|]. destruct (holdsb st p) eqn:Eh; [|done]. intros H. injection H as <-.
    apply step_clone with (p := p); [by apply holdsb_spec|done|done].
  - destruct (l_file st) as [i|] eqn:Ef; [|done]. destruct (holdsb st p) eqn:Eh; [|done]. intros H. injection H as <-.
    apply step_unlink; [by apply holdsb_spec|congruence].
  - destruct (l_fds st !! p) as [[d []]|] eqn:E; [|done..].
    destruct (holdsb st p) eqn:Eh; [|done]. intros H. injection H as <-.
    apply step_drop; [by apply holdsb_spec|done].
  - destruct (l_fds st !! p) as [[d r]|] eqn:E; [|done]. intros H. injection H as <-. by eapply step_die.
Qed.
Fixpoint run_events (st : lstate) (es : list event) : option lstate :=
  match es with [] => Some st | e :: es' => match run_event st e with Some st' => run_events st' es' | None => None end end.
Lemma run_events_sound (st st' : lstate) (es : list event) : run_events st es = Some st' → lsteps st es st'.
Proof.
  revert st. induction es as [|e es IH]; intros st; cbn [run_events].
  - intros H. injection H as <-. constructor.
  - destruct (run_event st e) as [st1|] eqn:E; [|done]. intros H.
    econstructor; [by apply run_event_sound|by apply IH].
Qed.
Definition check_run (es : list event) (f : lstate → bool) : bool :=
  match run_events l_start es with Some st => f st | None => false end.
Lemma check_run_sound (es : list event) (f : lstate → bool) : check_run es f = true →
  ∃ st, lsteps l_start es st ∧ f st = true.
Proof.
  unfold check_run. destruct (run_events l_start es) as [st|] eqn:E; [|done].
  intros H. exists st. split; [by apply run_events_sound|done].
Qed.

Definition race : list event :=
  [EOpen 1; EAcquire 1; EOpen 2; EUnlink 1; EOpen 3; EAcquire 3; EDrop 1; EAcquire 2].
Lemma race_runs : ∃ st, lsteps l_start race st ∧ holds st 2 ∧ holds st 3.
Proof.
  destruct (check_run_sound race (λ st, holdsb st 2 && holdsb st 3)) as (st & H & E); [vm_compute; reflexivity|].
  apply andb_true_iff in E as [E1 E2]. exists st. split; [exact H|]. split; by apply holdsb_spec.
Qed.
Theorem C42_refuted : ¬ C42_full.
Proof. intros H. destruct race_runs as (st & Hs & H2 & H3). specialize (H race st 2%N 3%N Hs H2 H3). discriminate H. Qed.
Print Assumptions C42_refuted.

Example C42_nonvacuous : ∃ es st, lsteps l_start es st ∧ (∀ r, EUnlink r ∉ es) ∧ holds st 2 ∧ waits st 1.
Proof.
  exists [EOpen 1; EOpen 2; EAcquire 1; EDie 1; EAcquire 2; EOpen 1]%N.
  destruct (check_run_sound [EOpen 1; EOpen 2; EAcquire 1; EDie 1; EAcquire 2; EOpen 1]%N
    (λ st, holdsb st 2 && bool_decide (l_fds st !! 1%N = Some (3%N, Command)) &&
           bool_decide (d_locked <$> l_descs st !! 3%N = Some false))%bool)
    as (st & H & E); [vm_compute; reflexivity|].
  apply andb_true_iff in E as [E E3]. apply andb_true_iff in E as [E1 E2].
  apply bool_decide_eq_true in E2, E3. exists st. split; [exact H|]. split; [|split].
  - intros r Hr. repeat (apply elem_of_cons in Hr as [Hr|Hr]; [discriminate Hr|]). by apply elem_of_nil in Hr.
  - by apply holdsb_spec.
  - destruct (l_descs st !! 3%N) as [[i b]|] eqn:E; [|discriminate E3]. cbn in E3. injection E3 as ->.
    by exists 3%N, i.
Qed.

(** ** C62: a command that ends, however it ends, does not leave the sandbox locked *)
(** If no command has the lock, a waiting command gets it. *)
Definition C62_full : Prop := ∀ es st q,
  lsteps l_start es st → (∀ p, ¬ holds st p) → waits st q → ∃ st', lstep st (EAcquire q) st'.

(** A command killed after it has cloned the sandbox's first process, before it drops the lock: the
    lock stays with the sandbox. *)
Lemma no_holder_by (st : lstate) :
  forallb (λ kv : N * (N * role), negb (holdsb st kv.1)) (map_to_list (l_fds st)) = true → ∀ p, ¬ holds st p.
Proof.
  intros H p (d & i & H1 & H2). rewrite forallb_forall in H.
  specialize (H (p, (d, Command))). cbn [fst] in H. unfold holdsb in H. rewrite H1, H2 in H.
  discriminate H. apply elem_of_list_In, elem_of_map_to_list, H1.
Qed.
Definition killed_late : list event := [EOpen 1; EAcquire 1; EClone 1 10; EDie 1; EOpen 2]%N.
Theorem C62_refuted : ¬ C62_full.
Proof.
  intros H.
  destruct (check_run_sound killed_late (λ st,
     forallb (λ kv : N * (N * role), negb (holdsb st kv.1)) (map_to_list (l_fds st)) &&
     bool_decide (l_fds st !! 2%N = Some (2%N, Command)) &&
     bool_decide (l_descs st !! 2%N = Some (Desc 0 false)) &&
     bool_decide (l_descs st !! 1%N = Some (Desc 0 true)))%bool) as (st & Hs & E); [vm_compute; reflexivity|].
  apply andb_true_iff in E as [E E4]. apply andb_true_iff in E as [E E3]. apply andb_true_iff in E as [E1 E2].
  apply bool_decide_eq_true in E2, E3, E4.
  destruct (H killed_late st 2%N Hs (no_holder_by st E1)) as (st' & Hstep); [by exists 2%N, 0%N|].
  inversion Hstep as [| |st0 p d i Hp Hd Hfree| | | |]; subst.
  rewrite E2 in Hp. injection Hp as <-. rewrite E3 in Hd. injection Hd as <-. by apply (Hfree 1%N).
Qed.
Print Assumptions C62_refuted.

(** Nor does it help to wait: until the sandbox's process itself ends no command ever gets the lock,
    and the command that would end it, stop, needs the lock. *)
Theorem C62_stuck_until_the_sandbox_ends (es es' : list event) (st st' : lstate) (c d i : N) :
  lsteps l_start es st → (∀ p, EUnlink p ∉ es) → (∀ p, ¬ holds st p) →
  l_fds st !! c = Some (d, Child) → l_descs st !! d = Some (Desc i true) →
  lsteps st es' st' → EDie c ∉ es' → ∀ p, ¬ holds st' p.
Proof.
  intros Hs Hno Hnh Hc Hd Hs' Hdie.
  pose proof (linv_steps _ _ _ linv_start Hs) as Hinv.
  pose proof (one_file _ _ Hs Hno) as Hone.
  assert (l_file st = Some i) as Hf by (apply (Hone d _ Hd)).
  assert (∀ k x, l_descs st !! k = Some x → d_inode x = i) as Hall.
  { intros k x Hk. specialize (Hone k x Hk). congruence. }
  clear Hs Hno Hone. induction Hs' as [|st e st1 es2 st2 Hstep _ IH]; [exact Hnh|].
  assert (EDie c ≠ e) as Hne by (intros <-; apply Hdie; left).
  assert (linv st1) as Hinv1 by (by eapply linv_step).
  cut ((∀ p, ¬ holds st1 p) ∧ l_fds st1 !! c = Some (d, Child) ∧ l_descs st1 !! d = Some (Desc i true) ∧
       l_file st1 = Some i ∧ ∀ k x, l_descs st1 !! k = Some x → d_inode x = i).
  { intros (A1 & A2 & A3 & A4 & A5). apply IH; try done. intros H. apply Hdie. by right. }
  clear IH Hinv1. destruct Hinv as [H1 H2 H3 H4 H5 H6].
  destruct Hstep as [st p j Hp Hf'|st p Hp Hf'|st p k j Hp Hk Hfree|st p c' k Hh Hp Hc'|st p Hh Hf'|st p k Hh Hp|st p k r Hp].
  - rewrite Hf in Hf'. injection Hf' as <-.
    assert (∀ k, (∃ x, l_descs st !! k = Some x) → k ≠ l_fresh st) as Hfr.
    { intros k [x Hx] ->. apply H1 in Hx. lia. }
    cbn [l_file l_descs l_fds]. split; [|split; [|split; [|split; [done|]]]].
    + intros q (k & j & Hq & Hk). cbn [l_descs l_fds] in Hq, Hk. apply lookup_insert_Some in Hk as [[_ Hk]|[Hne' Hk]]; [done|].
      apply lookup_insert_Some in Hq as [[_ Hq]|[_ Hq]]; [by injection Hq as <-|].
      apply (Hnh q). by exists k, j.
    + rewrite lookup_insert_ne; [done|]. intros ->. congruence.
    + rewrite lookup_insert_ne; [done|]. intros E. by apply (Hfr d); [eexists|].
    + intros k x Hk. apply lookup_insert_Some in Hk as [[_ <-]|[_ Hk]]; [done|]. by eapply Hall.
  - congruence.
  - assert (j = i) as -> by apply (Hall k _ Hk). by apply Hfree in Hd.
  - by destruct (Hnh p).
  - by destruct (Hnh p).
  - by destruct (Hnh p).
  - assert (p ≠ c) as Hpc by (intros ->; by apply Hne).
    split; [|split; [|split; [|split; [done|]]]].
    + intros q (k' & j & Hq & Hk). cbn [close l_fds] in Hq. apply lookup_delete_Some in Hq as [_ Hq].
      apply close_descs in Hk. apply (Hnh q). by exists k', j.
    + cbn [close l_fds]. by rewrite lookup_delete_ne.
    + eapply close_kept; [done|exact Hc|done].
    + intros k' x Hk. apply close_descs in Hk. by eapply Hall.
Qed.
Print Assumptions C62_stuck_until_the_sandbox_ends.

(** Proved for histories in which no command is killed while the sandbox's process shares its lock. *)
Definition no_late_kill (es : list event) : Prop := ∀ es1 p es2 st1 d c,
  es = es1 ++ EDie p :: es2 → lsteps l_start es1 st1 →
  l_fds st1 !! p = Some (d, Command) → l_fds st1 !! c ≠ Some (d, Child).
Lemma lsteps_snoc (st st' st'' : lstate) (es : list event) (e : event) :
  lsteps st es st' → lstep st' e st'' → lsteps st (es ++ [e]) st''.
Proof.
  intros H Hs. induction H as [|st e0 st1 es st2 H0 _ IH]; cbn [app].
  - econstructor; [exact Hs|constructor].
  - econstructor; [exact H0|by apply IH].
Qed.
Lemma lsteps_snoc_inv (st st'' : lstate) (es : list event) (e : event) :
  lsteps st (es ++ [e]) st'' → ∃ st', lsteps st es st' ∧ lstep st' e st''.
Proof.
  revert st. induction es as [|x es IH]; intros st H; cbn [app] in H; inversion H as [|? ? st1 ? ? H1 H2]; subst.
  - inversion H2; subst. exists st. split; [constructor|done].
  - destruct (IH _ H2) as (st' & A & B). exists st'. split; [by econstructor|done].
Qed.
Lemma owned_locks (es : list event) : no_late_kill es → ∀ st, lsteps l_start es st →
  ∀ d i, l_descs st !! d = Some (Desc i true) → ∃ p, l_fds st !! p = Some (d, Command).
Proof.
  induction es as [|e es IH] using rev_ind; intros Hno st Hs d i Hd.
  { inversion Hs; subst. cbn [l_start l_descs] in Hd. by rewrite lookup_empty in Hd. }
  apply lsteps_snoc_inv in Hs as (st0 & Hs & Hstep).
  assert (no_late_kill es) as Hno'.
  { intros es1 p es2 st1 d' c' E. apply (Hno es1 p (es2 ++ [e])). by rewrite E, <-app_assoc. }
  specialize (IH Hno' st0 Hs). pose proof (linv_steps _ _ _ linv_start Hs) as [H1 H2 H3 H4 H5 H6].
  destruct Hstep as [st p j Hp Hf'|st p Hp Hf'|st p k j Hp Hk Hfree|st p c' k Hh Hp Hc'|st p Hh Hf'|st p k Hh Hp|st p k r Hp];
    cbn [l_file l_descs l_fds] in *.
  - apply lookup_insert_Some in Hd as [[_ Hd]|[_ Hd]]; [done|]. destruct (IH d i Hd) as (q & Hq). exists q.
    rewrite lookup_insert_ne; [done|]. intros ->. congruence.
  - apply lookup_insert_Some in Hd as [[_ Hd]|[_ Hd]]; [done|]. destruct (IH d i Hd) as (q & Hq). exists q.
    rewrite lookup_insert_ne; [done|]. intros ->. congruence.
  - apply lookup_insert_Some in Hd as [[<- _]|[_ Hd]]; [by exists p|]. by eapply IH.
  - destruct (IH d i Hd) as (q & Hq). exists q. rewrite lookup_insert_ne; [done|]. intros ->. congruence.
  - by eapply IH.
  - apply close_descs in Hd. rewrite unlock_descs in Hd. destruct (decide (k = d)) as [<-|Hne].
    { by destruct (l_descs st !! k). }
    destruct (IH d i Hd) as (q & Hq). exists q. cbn [close unlock l_fds]. rewrite lookup_delete_ne; [done|]. intros <-. congruence.
  - pose proof Hd as Hd'. apply close_descs in Hd'. destruct (IH d i Hd') as (q & Hq).
    destruct (decide (q = p)) as [-> |Hne]; [|exists q; cbn [close l_fds]; by rewrite lookup_delete_ne].
    rewrite Hp in Hq. injection Hq as -> ->. exfalso.
    cbn [close l_descs] in Hd. destruct (decide _) as [E|E]; [by rewrite lookup_delete in Hd|].
    apply map_choose in E as (q & [k r] & Hq). apply map_filter_lookup_Some in Hq as [Hq Hr].
    unfold refers in Hr. cbn [fst snd] in Hr. subst k. apply lookup_delete_Some in Hq as [Hne Hq].
    destruct r.
    + apply Hne. by eapply H5.
    + by apply (Hno es p [] st d q eq_refl Hs Hp).
Qed.
Theorem C62_lock_becomes_free_partial (es : list event) (st : lstate) (q : N) :
  lsteps l_start es st → no_late_kill es → (∀ p, ¬ holds st p) → waits st q → ∃ st', lstep st (EAcquire q) st'.
Proof.
  intros Hs Hno Hnh (d & i & H1 & H2). eexists. eapply step_acquire; [exact H1|exact H2|].
  intros d' Hd'. destruct (owned_locks es Hno st Hs d' i Hd') as (p & Hp). apply (Hnh p). by exists d', i.
Qed.
Print Assumptions C62_lock_becomes_free_partial.
Example C62_nonvacuous : ∃ es st, lsteps l_start es st ∧ no_late_kill es ∧ (∀ p, ¬ holds st p) ∧ waits st 2 ∧
  l_fds st !! 10%N = Some (1%N, Child).
Proof.
  set (es := [EOpen 1; EAcquire 1; EClone 1 10; EDrop 1; EOpen 2]%N).
  destruct (check_run_sound es (λ st,
     forallb (λ kv : N * (N * role), negb (holdsb st kv.1)) (map_to_list (l_fds st)) &&
     bool_decide (l_fds st !! 2%N = Some (2%N, Command)) &&
     bool_decide (l_descs st !! 2%N = Some (Desc 0 false)) &&
     bool_decide (l_fds st !! 10%N = Some (1%N, Child)))%bool) as (st & Hs & E); [vm_compute; reflexivity|].
  apply andb_true_iff in E as [E E4]. apply andb_true_iff in E as [E E3]. apply andb_true_iff in E as [E1 E2].
  apply bool_decide_eq_true in E2, E3, E4. exists es, st. split; [exact Hs|]. split; [|split; [|split]].
  - intros es1 p es2 st1 d c E. exfalso.
    assert (EDie p ∈ es) as H by (rewrite E; apply elem_of_app; right; left).
    unfold es in H. repeat (apply elem_of_cons in H as [H|H]; [discriminate H|]). by apply elem_of_nil in H.
  - by apply no_holder_by.
  - by exists 2%N, 0%N.
  - exact E4.
Qed.
Example C62_stuck_nonvacuous : ∃ es st, lsteps l_start es st ∧ (∀ p, EUnlink p ∉ es) ∧ (∀ p, ¬ holds st p) ∧
  l_fds st !! 10%N = Some (1%N, Child) ∧ l_descs st !! 1%N = Some (Desc 0 true) ∧ waits st 2.
Proof.
  destruct (check_run_sound killed_late (λ st,
     forallb (λ kv : N * (N * role), negb (holdsb st kv.1)) (map_to_list (l_fds st)) &&
     bool_decide (l_fds st !! 2%N = Some (2%N, Command)) &&
     bool_decide (l_descs st !! 2%N = Some (Desc 0 false)) &&
     bool_decide (l_fds st !! 10%N = Some (1%N, Child)) &&
     bool_decide (l_descs st !! 1%N = Some (Desc 0 true)))%bool) as (st & Hs & E); [vm_compute; reflexivity|].
  apply andb_true_iff in E as [E E5].
  apply andb_true_iff in E as [E E4]. apply andb_true_iff in E as [E E3]. apply andb_true_iff in E as [E1 E2].
  apply bool_decide_eq_true in E2, E3, E4, E5. exists killed_late, st. split; [exact Hs|]. split; [|split; [|split; [|split]]].
  - intros r Hr. unfold killed_late in Hr. repeat (apply elem_of_cons in Hr as [Hr|Hr]; [discriminate Hr|]). by apply elem_of_nil in Hr.
  - by apply no_holder_by.
  - exact E4.
  - exact E5.
  - by exists 2%N, 0%N.
Qed.
