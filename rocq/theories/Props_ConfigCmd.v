(** * C75: what `config` prints; where the staged files of the current directory are.
    Model: Output.v [config_cmd], [derive] (actions/config.rs:10-134, config/resolve.rs:270-291). *)
From Verif Require Export Props_Status Props_Redirect.

(** ** Specification *)
(** Files made at or below [p] in the sandbox are staged at or below [P]. *)
Definition staging_place (ub : path) (ms : list path) (p P : path) : Prop :=
  ∃ m s, owns ms m p ∧ p = m ++ s ∧ P = upper_dir ub m ++ s.
(** The overlay mount that holds [p] begins where the device of [p] begins. *)
Definition begins_with_device (f : fs) (ms : list path) (p : path) : Prop :=
  ∀ m, owns ms m p → (∀ a, under m a = true → under a p = true → dev_at f a = dev_at f p) ∧
    (m = [] ∨ dev_at f (removelast m) ≠ dev_at f p).

(** ** One key *)
Lemma config_one (o : opts) (key : string) (s : sys) :
  config_cmd o (Some [key]) s =
  match derive (s_fs s) (e_cwd (o_env o)) (o_storage o) (o_name o) with
  | Err e => POut [] s [] (Err e)
  | Ok d =>
      match config_value (o_config o) (o_files o) d key with
      | Err e => POut [] s [] (Err e)
      | Ok kv => POut [] s
          [Put (fst kv) (JStr (snd kv)); Line (snd kv);
           Put "bind_mounts" (JArr (bind_json <$> c_binds (o_config o)));
           Put "config_files_list" (JArr (JStr <$> o_files o))] (Ok tt)
      end
  end.
Proof.
  unfold config_cmd. cbv zeta. unfold pbind, pget, pret, plift, sget, sret, say.
  cbn [so_res so_trace so_sys po_res po_trace po_sys po_ev].
  destruct (derive (s_fs s) (e_cwd (o_env o)) (o_storage o) (o_name o)) as [d|e]; [|reflexivity].
  cbn [so_res so_trace so_sys po_res po_trace po_sys po_ev default from_option id pfor length].
  unfold pbind, pget, pret, plift, sget, sret, say.
  cbn [so_res so_trace so_sys po_res po_trace po_sys po_ev].
  destruct (config_value (o_config o) (o_files o) d key) as [kv|e]; reflexivity.
Qed.
Lemma known_key (cfg : config) (files : list string) (d : derived) (key k v : string) :
  config_value cfg files d key = Ok (k, v) → k ∈ default_keys.
Proof.
  unfold config_value. intros H.
  repeat match type of H with
  | (if ?b then _ else _) = _ => destruct b; [injection H as <- _; refine (bool_decide_unpack _ _); vm_compute; exact I|]
  end. discriminate H.
Qed.
(** `config key` prints one line, the value, and with --json the same value under the key; anything else is an
    error and prints nothing. *)
Theorem C75_one_key (o : opts) (key : string) (s : sys) :
  let text := rn_out (main_run o (Ok tt) false (AConfig (Some [key])) s) in
  let json := rn_out (main_run o (Ok tt) true (AConfig (Some [key])) s) in
  (∃ k v obj, k ∈ default_keys ∧ oc_screen text = [Printed v] ∧ oc_exit text = 0%N ∧
     oc_exit json = 0%N ∧ oc_object json = Some obj ∧ obj !! k = Some (JStr v)) ∨
  (oc_screen text = [] ∧ oc_exit text ≠ 0%N ∧ oc_exit json = oc_exit text).
Proof.
  cbv zeta. unfold main_run. cbn [rn_out dispatch]. rewrite config_one.
  destruct (derive (s_fs s) (e_cwd (o_env o)) (o_storage o) (o_name o)) as [d|e].
  - destruct (config_value (o_config o) (o_files o) d key) as [[k v]|e] eqn:E.
    + left. exists k, v. eexists. pose proof (known_key _ _ _ _ _ _ E) as Hk.
      cbn [po_res po_ev Output.finish oc_screen oc_object oc_exit exit_of object_of fst snd].
      split; [exact Hk|]. split; [reflexivity|]. split; [done|]. split; [done|]. split; [reflexivity|].
      unfold fields. cbn [foldl fst snd].
      assert (k ≠ "status" ∧ k ≠ "config_files_list" ∧ k ≠ "bind_mounts") as (H1 & H2 & H3).
      { assert (∀ x, x ∉ default_keys → k ≠ x) as H by (intros x Hx ->; contradiction).
        split; [|split]; apply H; refine (bool_decide_unpack _ _); vm_compute; exact I. }
      rewrite lookup_insert_ne by (by apply not_eq_sym). rewrite lookup_insert_ne by (by apply not_eq_sym).
      rewrite lookup_insert_ne by (by apply not_eq_sym). apply lookup_insert.
    + right. cbn [po_res po_ev Output.finish oc_screen oc_object oc_exit]. split; [done|]. by destruct e.
  - right. cbn [po_res po_ev Output.finish oc_screen oc_object oc_exit]. split; [done|]. by destruct e.
Qed.
Print Assumptions C75_one_key.

(** ** The staging directory of the current directory *)
Lemma under_chain (a b p : path) : under a p = true → under b p = true → under a b = true ∨ under b a = true.
Proof. intros H1 H2. by apply (under_comparable a b p). Qed.
Lemma under_parent (a b : path) : under a b = true → a ≠ b → under a (removelast b) = true.
Proof.
  intros H Hne. apply under_spec in H as [t ->]. destruct (path_snoc_case t) as [-> |(r & x & ->)].
  - rewrite app_nil_r in Hne. done.
  - rewrite app_assoc, removelast_snoc. apply under_app.
Qed.
Lemma removelast_under (p : path) : under (removelast p) p = true.
Proof. destruct (path_snoc_case p) as [-> |(r & x & ->)]; [done|]. rewrite removelast_snoc. apply under_app. Qed.

Lemma device_start (f : fs) (p m m' : path) (d : N) :
  under m p = true → under m' p = true →
  (∀ a, under m a = true → under a p = true → dev_at f a = Some d) → (m = [] ∨ dev_at f (removelast m) ≠ Some d) →
  (∀ a, under m' a = true → under a p = true → dev_at f a = Some d) → (m' = [] ∨ dev_at f (removelast m') ≠ Some d) →
  m = m'.
Proof.
  intros Hm Hm' A1 A2 B1 B2. destruct (decide (m = m')) as [|Hne]; [done|]. exfalso.
  destruct (under_chain m m' p Hm Hm') as [H|H].
  - destruct B2 as [-> |B2].
    { apply Hne. apply under_spec in H as [t E]. by destruct m. }
    apply B2, A1; [by apply under_parent|]. eapply under_trans; [apply removelast_under|done].
  - destruct A2 as [-> |A2].
    { apply Hne. apply under_spec in H as [t E]. by destruct m'. }
    apply A2, B1; [apply under_parent; [done|by apply not_eq_sym]|]. eapply under_trans; [apply removelast_under|done].
Qed.

Lemma b32_utf8 (x : string) : utf8_valid (b32_encode x) = true.
Proof.
  apply ascii_only_utf8. unfold ascii_only. apply forallb_forall. intros c Hc. apply elem_of_list_In, b32_encode_alphabet in Hc.
  assert (forallb (in_rng 0 127) alphabet = true) as H by (vm_compute; reflexivity). rewrite forallb_forall in H.
  apply H. by apply elem_of_list_In.
Qed.
Lemma find_owner (f : fs) (ms : list path) (p m : path) : wf_tree f → exists_ f p = true →
  owns ms m p → begins_with_device f ms p → find_mount_point f p = Ok m.
Proof.
  intros Hwf Hex Hown Hdev. destruct (Hdev m Hown) as [D1 D2].
  destruct (C26_find_mount_point f p Hwf) as (m' & q & r & d & -> & Ep & Hq & Hr & Hu & Hd & A1 & A2). f_equal.
  assert (r = []) as ->.
  { destruct (decide (r = [])) as [|Hne]; [done|]. specialize (Hr r [] Hne (eq_sym (app_nil_r r))). rewrite <-Ep in Hr. congruence. }
  rewrite app_nil_r in Ep. subst q. rewrite Hd in D1, D2. symmetry.
  apply (device_start f p m m' d); [apply Hown|done|exact D1|exact D2|exact A1|exact A2].
Qed.
(** `config upper_cwd` prints the directory below which the files made in the current directory are staged. *)
Theorem C75_upper_cwd_partial (o : opts) (s : sys) (ms : list path) :
  let f := s_fs s in let cwd := e_cwd (o_env o) in
  wf_tree f → exists_ f cwd = true → (∃ m, owns ms m cwd) → begins_with_device f ms cwd →
  Forall clean cwd → Forall clean (base_of (o_storage o) (o_name o)) →
  ∃ P, staging_place (upper_of (o_storage o) (o_name o)) ms cwd P ∧
    oc_screen (rn_out (main_run o (Ok tt) false (AConfig (Some ["upper_cwd"])) s)) = [Printed (path_str P)] ∧
    oc_exit (rn_out (main_run o (Ok tt) false (AConfig (Some ["upper_cwd"])) s)) = 0%N.
Proof.
  cbv zeta. intros Hwf Hex [m Hown] Hdev Hcwd Hbase. unfold main_run. cbn [rn_out dispatch]. rewrite config_one.
  unfold derive. rewrite (find_owner _ ms _ m Hwf Hex Hown Hdev). cbn [rbind].
  pose proof (proj1 (proj2 Hown)) as Hu. apply under_spec in Hu as [t Et].
  rewrite Et, path_strip_app. cbn [rbind]. rewrite Et in Hcwd. apply Forall_app in Hcwd as [Hm Ht].
  rewrite lossy_valid by (by apply clean_str).
  exists (upper_dir (upper_of (o_storage o) (o_name o)) m ++ t). split; [exists m, t; by rewrite <-Et|].
  unfold config_value. cbn [String.eqb Ascii.eqb Bool.eqb orb rbind po_res po_ev Output.finish oc_screen oc_exit].
  unfold upper_dir, upper_of. cbn [dv_upper]. rewrite <-!app_assoc. cbn [app].
  unfold to_str_or_error. rewrite clean_str; [split; reflexivity|].
  apply Forall_app. split; [done|]. apply Forall_cons. split; [|apply Forall_cons; split; [|done]].
  - split; [apply comp_okb_spec|]; reflexivity.
  - split; [|apply b32_utf8]. apply b32_encode_comp_ok. discriminate.
Qed.
Print Assumptions C75_upper_cwd_partial.

(** In full: whatever is mounted. False: a bind mount of a directory of the same filesystem (mount --bind) has an
    overlay of its own, but its device number does not differ from that of the directory above. *)
Definition C75_full : Prop := ∀ o s ms P,
  let f := s_fs s in let cwd := e_cwd (o_env o) in
  sandbox_ok f (upper_of (o_storage o) (o_name o)) ms → exists_ f cwd = true →
  Forall clean cwd → Forall clean (base_of (o_storage o) (o_name o)) →
  staging_place (upper_of (o_storage o) (o_name o)) ms cwd P →
  oc_screen (rn_out (main_run o (Ok tt) false (AConfig (Some ["upper_cwd"])) s)) = [Printed (path_str P)].
Definition home_hash : string := b32_encode "/home".
Definition bound_sys : sys :=
  Sys (list_to_map
    [ ([], dir0); (["home"], dir0); (["sbx"], dir0); (["sbx"; "a"], dir0); (["sbx"; "a"; "upper"], dir0);
      (["sbx"; "a"; "upper"; "F4"], dir0); (["sbx"; "a"; "upper"; home_hash], dir0);
      (["sbx"; "a"; "upper"; home_hash; "new"], file_ "text") ]) ∅ [].
Theorem C75_refuted : ¬ C75_full.
Proof.
  intros H.
  pose proof (H status_opts bound_sys [[]; ["home"]] ["sbx"; "a"; "upper"; home_hash]) as K. cbv zeta in K. clear H.
  assert (oc_screen (rn_out (main_run status_opts (Ok tt) false (AConfig (Some ["upper_cwd"])) bound_sys)) =
    [Printed "/sbx/a/upper/F4/home"]) as E by (vm_compute; reflexivity).
  rewrite E in K. clear E.
  assert ([Printed "/sbx/a/upper/F4/home"] = [Printed (path_str ["sbx"; "a"; "upper"; home_hash])]) as E; [|vm_compute in E; discriminate E].
  assert (∀ p, forallb tameb p = true → Forall clean p) as Hp.
  { intros p H. apply tame_clean, Forall_forall. intros x Hx. apply tameb_spec. rewrite forallb_forall in H.
    apply H. by apply elem_of_list_In. }
  apply K.
  - apply sandbox_okb_spec. vm_compute. reflexivity.
  - vm_compute. reflexivity.
  - apply Hp. vm_compute. reflexivity.
  - apply Hp. vm_compute. reflexivity.
  - exists ["home"], []. split; [|split; reflexivity]. split; [right; left|]. split; [reflexivity|].
    intros m' Hm _. apply elem_of_cons in Hm as [-> |Hm]; [reflexivity|]. apply elem_of_list_singleton in Hm as ->. reflexivity.
Qed.
Print Assumptions C75_refuted.

(** Non-vacuity: /home on its own device. *)
Definition two_dev_sys : sys :=
  Sys (list_to_map
    [ ([], dir0); (["home"], Node KDir 493 0 0 2 ∅); (["sbx"], dir0); (["sbx"; "a"], dir0); (["sbx"; "a"; "upper"], dir0);
      (["sbx"; "a"; "upper"; home_hash], dir0); (["sbx"; "a"; "upper"; home_hash; "new"], file_ "text") ]) ∅ [].
Example C75_nonvacuous :
  wf_tree (s_fs two_dev_sys) ∧ exists_ (s_fs two_dev_sys) ["home"] = true ∧ owns [[]; ["home"]] ["home"] ["home"] ∧
  begins_with_device (s_fs two_dev_sys) [[]; ["home"]] ["home"] ∧
  oc_screen (rn_out (main_run status_opts (Ok tt) false (AConfig (Some ["upper-cwd"])) two_dev_sys)) =
    [Printed (path_str ["sbx"; "a"; "upper"; home_hash])] ∧
  oc_screen (rn_out (main_run status_opts (Ok tt) false (AConfig (Some ["name"])) two_dev_sys)) = [Printed "a"] ∧
  oc_exit (rn_out (main_run status_opts (Ok tt) false (AConfig (Some ["nam"])) two_dev_sys)) = 1%N.
Proof.
  assert (owns [[]; ["home"]] ["home"] ["home"]) as Ho.
  { split; [right; left|]. split; [reflexivity|]. intros m' Hm _. apply elem_of_cons in Hm as [-> |Hm]; [reflexivity|].
    apply elem_of_list_singleton in Hm as ->. reflexivity. }
  split; [apply wf_treeb_spec; vm_compute; reflexivity|]. split; [vm_compute; reflexivity|]. split; [exact Ho|].
  split; [|split; [vm_compute; reflexivity|split; vm_compute; reflexivity]].
  intros m Hm. rewrite (owner_unique _ m ["home"] ["home"] Hm Ho). split.
  - intros a H1 H2. apply under_antisym in H1; [|exact H2]. by rewrite H1.
  - right. vm_compute. discriminate.
Qed.
