(** * C27, whole sandboxes: renames accepted together with new, changed and removed files *)
From Verif Require Export RenamePlan.

(** Every selection of renames, installations and removals that the host admits ([doable]) is
    carried out: accept succeeds; every place where nothing is installed holds what the removals
    and the renames put there; every installed place holds its staged object; and exactly the
    staged objects leave the storage. *)
Theorem C27_mixed_accepted_partial : ∀ e f ub dev udev inc pats sel, wf_tree f → env_ok e →
  selected e f ub inc pats = Ok sel → sel ≠ [] → doable e f ub dev sel → one_device f ub udev →
  let o := accept e ub inc pats f in
  is_ok (o_res o) = true ∧
  (∀ q, under ub q = false → (∀ c, c ∈ sel → is_set c → c_dest c ≠ q) →
     arranged (without f (removals sel)) (moves sel) (moves sel) q (o_fs o !! q)) ∧
  (∀ c u n, c ∈ sel → is_set c → c_staged c = Some (details_of u n) → f !! u = Some n →
     ∃ n', o_fs o !! c_dest c = Some n' ∧ same_entry n n') ∧
  (∀ q, under ub q = true → (staged_in sel q → o_fs o !! q = None) ∧ (¬ staged_in sel q → o_fs o !! q = f !! q)).
Proof.
  intros e f ub dev udev inc pats sel Hwf He Hsel Hne Hdb Hud.
  destruct (accept_doable e f ub dev udev inc pats sel Hwf He Hsel Hne Hdb Hud) as (H1 & H2 & H3 & H4 & _). by split_and!.
Qed.
Print Assumptions C27_mixed_accepted_partial.

(** ** Computing what is found where *)
Fixpoint inner (dst : list (path * path)) (q : path) : option (path * path) :=
  match dst with
  | [] => None
  | m :: l =>
      if under m.2 q then
        match inner l q with Some m' => if under m.2 m'.2 then Some m' else Some m | None => Some m end
      else inner l q
  end.
Lemma inner_spec (dst : list (path * path)) (q : path) :
  match inner dst q with
  | Some m => innermost dst m q
  | None => ∀ m, m ∈ dst → under m.2 q = false
  end.
Proof.
  induction dst as [|m l IH]; cbn [inner]; [intros m Hm; by apply elem_of_nil in Hm|].
  destruct (under m.2 q) eqn:Em.
  - destruct (inner l q) as [m'|].
    + destruct IH as (H1 & H2 & H3). destruct (under m.2 m'.2) eqn:Eu.
      * split; [by right|]. split; [done|]. intros m0 [-> |Hm0]%elem_of_cons Hu; [done|]. by apply H3.
      * split; [left|]. split; [done|]. intros m0 [-> |Hm0]%elem_of_cons Hu; [apply under_refl|].
        specialize (H3 m0 Hm0 Hu). destruct (under_comparable m.2 m'.2 q Em H2) as [?|H]; [congruence|].
        by apply (under_trans _ m'.2).
    + split; [left|]. split; [done|]. intros m0 [-> |Hm0]%elem_of_cons Hu; [apply under_refl|]. by rewrite (IH m0 Hm0) in Hu.
  - destruct (inner l q) as [m'|].
    + destruct IH as (H1 & H2 & H3). split; [by right|]. split; [done|]. intros m0 [-> |Hm0]%elem_of_cons Hu; [congruence|]. by apply H3.
    + intros m0 [-> |Hm0]%elem_of_cons; [done|]. by apply IH.
Qed.
Definition found (f : fs) (mv dst : list (path * path)) (q : path) : option node :=
  match inner dst q with
  | Some m => match path_strip m.2 q with Some r => carried f mv m.1 r | None => None end
  | None => left_behind f mv q
  end.
Lemma found_spec (f : fs) (mv dst : list (path * path)) (q : path) : NoDup dst.*2 → arranged f mv dst q (found f mv dst q).
Proof.
  intros Hnd. unfold found. pose proof (inner_spec dst q) as Hi. destruct (inner dst q) as [m|].
  - split.
    + intros m' r -> Hm'. assert (m' = m) as ->.
      { destruct Hi as (H1 & H2 & H3), Hm' as (H1' & H2' & H3').
        assert (m.2 = m'.2) as E by (apply under_antisym; [by apply H3'|by apply H3]).
        apply elem_of_list_lookup in H1 as [i Hi]. apply elem_of_list_lookup in H1' as [j Hj].
        assert (i = j) as ->; [|congruence].
        apply (NoDup_lookup _ _ _ m.2 Hnd); rewrite list_lookup_fmap; [by rewrite Hi|rewrite Hj, E; done]. }
      destruct (path_strip m.2 (m.2 ++ r)) as [r'|] eqn:E.
      * apply path_strip_spec in E. apply app_inv_head in E as ->. done.
      * apply path_strip_None in E. by rewrite under_app in E.
    + intros H. destruct Hi as (H1 & H2 & _). by rewrite (H m H1) in H2.
  - split; [|done]. intros m r _ (H1 & H2 & _). by rewrite (Hi m H1) in H2.
Qed.

(** ** A sandbox in which this applies: [mkdir /new; mv /a /new/b; echo 2 > /new/b/f;
    rm /new/b/g; echo x > /new/b/k; mv /new/b/in /e; rm -r /gone; chown 5:5 /l; ln -s f /s].  *)
Definition mixed_fs : fs := list_to_map
  [ ([], dir0); (["home"], dir0);
    (["a"], dir0); (["a"; "f"], file_ "1"); (["a"; "g"], file_ "g"); (["a"; "h"], file_ "h");
    (["a"; "in"], dir0); (["a"; "in"; "i"], file_ "i");
    (["gone"], dir0); (["gone"; "z"], file_ "z"); (["l"], file_ "l"); (["s"], file_ "s");
    (["sbx"], dir0); (["sbx"; "up"], dir0); (["sbx"; "up"; "F4"], dir0);
    (["sbx"; "up"; "F4"; "a"], wh);
    (["sbx"; "up"; "F4"; "new"], dir0); (["sbx"; "up"; "F4"; "new"; "b"], rdir "/a");
    (["sbx"; "up"; "F4"; "new"; "b"; "f"], file_ "2"); (["sbx"; "up"; "F4"; "new"; "b"; "g"], wh);
    (["sbx"; "up"; "F4"; "new"; "b"; "k"], file_ "x"); (["sbx"; "up"; "F4"; "new"; "b"; "in"], wh);
    (["sbx"; "up"; "F4"; "e"], rdir "/a/in"); (["sbx"; "up"; "F4"; "gone"], wh);
    (["sbx"; "up"; "F4"; "l"], Node (KFile "l") 420 5 5 1 ∅); (["sbx"; "up"; "F4"; "s"], Node (KLink "f") 511 0 0 1 ∅) ].
Definition mixed_sel : list change :=
  match selected demo_env mixed_fs demo_ub true ["/"] with Ok l => l | Err _ => [] end.
Lemma mixed_moves : moves mixed_sel = [(["a"], ["new"; "b"]); (["a"; "in"], ["e"])].
Proof. vm_compute. reflexivity. Qed.
Lemma mixed_removals : removals mixed_sel = [["gone"]; ["gone"; "z"]; ["a"; "g"]].
Proof. vm_compute. reflexivity. Qed.
Lemma mixed_arrivals : arrivals mixed_sel =
  [["new"; "b"]; ["e"]; ["new"; "b"; "f"]; ["new"; "b"; "k"]; ["l"]; ["s"]; ["new"]].
Proof. vm_compute. reflexivity. Qed.
Lemma mixed_wf : wf_tree mixed_fs.
Proof. apply wf_treeb_spec. vm_compute. reflexivity. Qed.

Definition mixed_host : fs := without mixed_fs (removals mixed_sel).
Lemma mixed_found (dst : list (path * path)) (q : path) (t : option node) :
  found mixed_host (moves mixed_sel) dst q = t → bool_decide (NoDup dst.*2) = true → arranged mixed_host (moves mixed_sel) dst q t.
Proof. intros <- H. apply found_spec. apply bool_decide_eq_true in H. exact H. Qed.
Lemma mixed_dev (q : path) (d : node) : arranged mixed_host (moves mixed_sel) (moves mixed_sel) q (Some d) → n_dev d = 1%N.
Proof.
  intros H. pose proof (arranged_det _ _ _ _ _ _ H (mixed_found (moves mixed_sel) q _ eq_refl ltac:(vm_compute; reflexivity))) as E.
  assert (∀ p k, mixed_host !! p = Some k → n_dev k = 1%N) as Hall.
  { intros p k Hk. assert (on_fs mixed_host (λ _ n, N.eqb (n_dev n) 1) = true) as Hc by (vm_compute; reflexivity).
    apply (on_fs_spec _ _ Hc) in Hk. by apply N.eqb_eq. }
  clear H. symmetry in E. unfold found, carried, left_behind in E.
  destruct (inner _ q) as [m|].
  - destruct (path_strip _ _); [|discriminate E]. destruct (existsb _ _); [discriminate E|]. by apply Hall in E.
  - destruct (existsb _ _); [discriminate E|]. by apply Hall in E.
Qed.
Ltac each H := repeat (apply elem_of_cons in H as [-> |H]); [.. | by apply elem_of_nil in H].
Ltac host_parent := right; split; [|exists dir0; split; [reflexivity|apply mixed_found; vm_compute; reflexivity]];
  let c := fresh "c" in let Hc := fresh "Hc" in let Hs := fresh "Hs" in
  intros c Hc Hs; let l := eval vm_compute in mixed_sel in change mixed_sel with l in Hc; each Hc;
  first [destruct Hs as [? Hs]; discriminate Hs | let E := fresh in intros E; discriminate E].
Ltac new_parent := left; eexists _, _; split; [|split; [|split; [|split]]];
  [let l := eval vm_compute in mixed_sel in change mixed_sel with l; do 9 right; left | eexists; reflexivity | reflexivity | reflexivity | vm_compute; reflexivity].

Lemma mixed_doable : doable demo_env mixed_fs demo_ub 1 mixed_sel.
Proof.
  split; fold mixed_host.
  - let l := eval vm_compute in mixed_sel in change mixed_sel with l. intros c Hc. each Hc.
    1, 4: left; eexists; reflexivity.
    3, 5, 6, 7, 8: right; left; eexists; reflexivity.
    all: right; right; eexists; reflexivity.
  - let l := eval vm_compute in mixed_sel in change mixed_sel with l. intros c d Hc E. each Hc; try discriminate E; injection E as <-.
    + exists ["F4"; "new"; "b"], (rdir "/a"). split; [discriminate|split; vm_compute; reflexivity].
    + exists ["F4"; "gone"], wh. split; [discriminate|split; vm_compute; reflexivity].
    + exists ["F4"; "e"], (rdir "/a/in"). split; [discriminate|split; vm_compute; reflexivity].
    + exists ["F4"; "new"; "b"; "f"], (file_ "2"). split; [discriminate|split; vm_compute; reflexivity].
    + exists ["F4"; "new"; "b"; "g"], wh. split; [discriminate|split; vm_compute; reflexivity].
    + exists ["F4"; "new"; "b"; "k"], (file_ "x"). split; [discriminate|split; vm_compute; reflexivity].
    + exists ["F4"; "l"], (Node (KFile "l") 420 5 5 1 ∅). split; [discriminate|split; vm_compute; reflexivity].
    + exists ["F4"; "s"], (Node (KLink "f") 511 0 0 1 ∅). split; [discriminate|split; vm_compute; reflexivity].
    + exists ["F4"; "new"], dir0. split; [discriminate|split; vm_compute; reflexivity].
  - rewrite mixed_arrivals. refine (bool_decide_unpack _ _). vm_compute. exact I.
  - rewrite mixed_removals. refine (bool_decide_unpack _ _). vm_compute. exact I.
  - rewrite mixed_removals. let l := eval vm_compute in mixed_sel in change mixed_sel with l. intros c p Hc E.
    each Hc; try discriminate E; injection E as <-.
    + split; [discriminate|]. exists dir0. split; [vm_compute; reflexivity|]. split; [vm_compute; reflexivity|]. split; [reflexivity|].
      intros _. split; [vm_compute; reflexivity|]. intros x [k Hk].
      assert (on_fs mixed_fs (λ q _, match q with [a; b] => if String.eqb a "gone" then String.eqb b "z" else true | _ => true end) = true) as Hc
        by (vm_compute; reflexivity).
      apply (on_fs_spec _ _ Hc) in Hk. cbn [app] in Hk. rewrite String.eqb_refl in Hk. apply String.eqb_eq in Hk as ->. right. left.
    + split; [discriminate|]. exists (file_ "z"). split; [vm_compute; reflexivity|]. split; [vm_compute; reflexivity|]. split; [reflexivity|discriminate].
    + split; [discriminate|]. exists (file_ "g"). split; [vm_compute; reflexivity|]. split; [vm_compute; reflexivity|]. split; [reflexivity|discriminate].
  - rewrite mixed_removals, mixed_moves. intros p Hp. each Hp; (split; [vm_compute; reflexivity|]);
      (split; [vm_compute; reflexivity|]); (split; [vm_compute; reflexivity|]); intros m Hm; each Hm; vm_compute; reflexivity.
  - rewrite mixed_moves. refine (bool_decide_unpack _ _). vm_compute. exact I.
  - rewrite mixed_moves. intros m Hm. each Hm; (split; [discriminate|]); (split; [vm_compute; reflexivity|]);
      exists dir0; repeat split; vm_compute; reflexivity.
  - intros m Hm. rewrite mixed_moves in Hm. each Hm.
    + exists ["new"], "b". split; [reflexivity|]. split; [apply comp_okb_spec; vm_compute; reflexivity|].
      split; [apply mixed_found; vm_compute; reflexivity|]. split; [new_parent|]. exact (mixed_dev _).
    + exists [], "e". split; [reflexivity|]. split; [apply comp_okb_spec; vm_compute; reflexivity|].
      split; [apply mixed_found; vm_compute; reflexivity|]. split; [host_parent|]. exact (mixed_dev _).
  - intros c Hc Hs.
    assert (∀ q t, found mixed_host (moves mixed_sel) (moves mixed_sel) q = t → ∀ n, ¬ in_the_way n t →
      ∀ t', arranged mixed_host (moves mixed_sel) (moves mixed_sel) q t' → ¬ in_the_way n t') as Hway.
    { intros q t E n Hn t' Ht'.
      pose proof (mixed_found (moves mixed_sel) q t E ltac:(vm_compute; reflexivity)) as H1.
      rewrite (arranged_det _ _ _ _ _ _ Ht' H1). exact Hn. }
    assert (∀ q t (m : path * path), m ∈ moves mixed_sel → above q m.2 = true →
       (∀ d, arranged mixed_host (moves mixed_sel) (moves mixed_sel) q (Some d) → n_dev d = 1%N) ∧
       (∀ d, arranged mixed_host (moves mixed_sel) (moves mixed_sel) t (Some d) → n_dev d = 1%N)) as Hdv
      by (intros q t m _ _; split; exact (mixed_dev _)).
    assert (∀ q : path, found mixed_host (moves mixed_sel) (moves mixed_sel) (with_extension q "uuid") = None →
      bool_decide (with_extension q "uuid" ∉ arrivals mixed_sel) = true →
      forallb (λ m : path * path, negb (under (tmp_name (e_cwd demo_env) m.1 m.2 "uuid") (with_extension q "uuid"))) (moves mixed_sel) = true →
      ∀ i, e_uuid demo_env 3 i ≠ "" ∧ contains "/" (e_uuid demo_env 3 i) = false ∧
       arranged mixed_host (moves mixed_sel) (moves mixed_sel) (with_extension q (e_uuid demo_env 3 i)) None ∧
       with_extension q (e_uuid demo_env 3 i) ∉ arrivals mixed_sel ∧
       ∀ ph j m, m ∈ moves mixed_sel →
         under (tmp_name (e_cwd demo_env) m.1 m.2 (e_uuid demo_env ph j)) (with_extension q (e_uuid demo_env 3 i)) = false) as Htmp.
    { intros q H1 H2 H3 i. split; [discriminate|]. split; [vm_compute; reflexivity|]. cbn [e_uuid demo_env].
      split; [apply mixed_found; [exact H1|vm_compute; reflexivity]|].
      split; [apply bool_decide_eq_true in H2; exact H2|]. intros _ _ m Hm.
      rewrite forallb_forall in H3. apply elem_of_list_In in Hm. apply H3 in Hm. apply negb_true_iff in Hm. exact Hm. }
    let l := eval vm_compute in mixed_sel in change mixed_sel with l in Hc.
    each Hc; try (destruct Hs as [? Hs]; discriminate Hs); clear Hs; cbn [c_dest c_staged].
    + exists ["sbx"; "up"; "F4"; "new"; "b"; "f"], (file_ "2"), ["new"; "b"], "f".
      split; [reflexivity|]. split; [vm_compute; reflexivity|]. split; [reflexivity|]. split; [reflexivity|].
      split; [apply comp_okb_spec; vm_compute; reflexivity|]. split; [vm_compute; reflexivity|].
      split; [host_parent|]. split; [apply (Hway _ (Some (file_ "1"))); [vm_compute; reflexivity|intros [[_ H]|[H _]]; discriminate H]|].
      split; [exact (Hdv _ _)|]. intros _ i. apply Htmp; vm_compute; reflexivity.
    + exists ["sbx"; "up"; "F4"; "new"; "b"; "k"], (file_ "x"), ["new"; "b"], "k".
      split; [reflexivity|]. split; [vm_compute; reflexivity|]. split; [reflexivity|]. split; [reflexivity|].
      split; [apply comp_okb_spec; vm_compute; reflexivity|]. split; [vm_compute; reflexivity|].
      split; [host_parent|]. split; [apply (Hway _ None); [vm_compute; reflexivity|intros H; exact H]|].
      split; [exact (Hdv _ _)|]. intros _ i. apply Htmp; vm_compute; reflexivity.
    + exists ["sbx"; "up"; "F4"; "l"], (Node (KFile "l") 420 5 5 1 ∅), [], "l".
      split; [reflexivity|]. split; [vm_compute; reflexivity|]. split; [reflexivity|]. split; [reflexivity|].
      split; [apply comp_okb_spec; vm_compute; reflexivity|]. split; [vm_compute; reflexivity|].
      split; [host_parent|]. split; [apply (Hway _ (Some (file_ "l"))); [vm_compute; reflexivity|intros [[_ H]|[H _]]; discriminate H]|].
      split; [exact (Hdv _ _)|]. intros _ i. apply Htmp; vm_compute; reflexivity.
    + exists ["sbx"; "up"; "F4"; "s"], (Node (KLink "f") 511 0 0 1 ∅), [], "s".
      split; [reflexivity|]. split; [vm_compute; reflexivity|]. split; [reflexivity|]. split; [reflexivity|].
      split; [apply comp_okb_spec; vm_compute; reflexivity|]. split; [vm_compute; reflexivity|].
      split; [host_parent|]. split; [apply (Hway _ (Some (file_ "s"))); [vm_compute; reflexivity|intros [[_ H]|[H _]]; discriminate H]|].
      split; [exact (Hdv _ _)|]. intros H. discriminate H.
    + exists ["sbx"; "up"; "F4"; "new"], dir0, [], "new".
      split; [reflexivity|]. split; [vm_compute; reflexivity|]. split; [reflexivity|]. split; [reflexivity|].
      split; [apply comp_okb_spec; vm_compute; reflexivity|]. split; [vm_compute; reflexivity|].
      split; [host_parent|]. split; [apply (Hway _ None); [vm_compute; reflexivity|intros H; exact H]|].
      split; [exact (Hdv _ _)|]. intros H. discriminate H.
  - exists []. split; [intros _; vm_compute; reflexivity|]. rewrite mixed_moves. intros m Hm. each Hm; split; vm_compute; reflexivity.
  - exists dir0. repeat split; vm_compute; reflexivity.
  - rewrite mixed_moves. intros m Hm. each Hm; split; vm_compute; reflexivity.
  - rewrite mixed_moves. intros m Hm. each Hm; repeat split; vm_compute; reflexivity.
  - rewrite mixed_moves, mixed_arrivals. intros ph i m Hm. cbn [e_uuid demo_env].
    each Hm; (split; [vm_compute; reflexivity|]); (split; [vm_compute; reflexivity|]); intros q Hq; each Hq; vm_compute; reflexivity.
  - rewrite mixed_moves. intros i j m m' Hm Hm' Hne _. cbn [e_uuid demo_env].
    each Hm; each Hm'; try (by destruct Hne); vm_compute; discriminate.
Qed.
Example C27_mixed_nonvacuous : selected demo_env mixed_fs demo_ub true ["/"] = Ok mixed_sel ∧ mixed_sel ≠ [] ∧
  wf_tree mixed_fs ∧ env_ok demo_env ∧ one_device mixed_fs demo_ub 1 ∧ doable demo_env mixed_fs demo_ub 1 mixed_sel.
Proof.
  split; [vm_compute; reflexivity|]. split; [vm_compute; discriminate|].
  split; [exact mixed_wf|]. split; [exact demo_env_ok|].
  split; [apply one_deviceb_spec; vm_compute; reflexivity|exact mixed_doable].
Qed.
(** What the theorem says about it, in part. *)
Example C27_mixed_run : let o := accept demo_env demo_ub true ["/"] mixed_fs in
  is_ok (o_res o) = true ∧ o_fs o !! ["new"; "b"; "h"] = Some (file_ "h") ∧ o_fs o !! ["e"; "i"] = Some (file_ "i") ∧
  o_fs o !! ["new"; "b"; "g"] = None ∧ o_fs o !! ["new"; "b"; "in"] = None ∧ o_fs o !! ["a"] = None ∧ o_fs o !! ["gone"] = None ∧
  (n_kind <$> o_fs o !! ["new"; "b"; "f"]) = Some (KFile "2") ∧ (n_uid <$> o_fs o !! ["l"]) = Some 5%N.
Proof. vm_compute. repeat split; reflexivity. Qed.
