(** * C106: `config` with several keys.
    Model: Output.v [config_cmd], [config_value] (actions/config.rs:10-134). *)
From Verif Require Export Props_ConfigCmd.

(** ** Specification *)
(** What `config` prints, and its exit status, for these keys. *)
Definition config_screen (o : opts) (keys : list string) (s : sys) : list seen :=
  oc_screen (rn_out (main_run o (Ok tt) false (AConfig (Some keys)) s)).
Definition config_exit (o : opts) (keys : list string) (s : sys) : N :=
  oc_exit (rn_out (main_run o (Ok tt) false (AConfig (Some keys)) s)).
(** A key with underscores for dashes. *)
Fixpoint underscored (k : string) : string :=
  match k with
  | EmptyString => EmptyString
  | String a k' => String (if Ascii.eqb a "-" then "_"%char else a) (underscored k')
  end.
(** The line for a key has its name and the value that `config` prints for the key alone. *)
Definition line_for (o : opts) (s : sys) (key line : string) : Prop :=
  ∃ v : string, line = underscored key +:+ "=" +:+ v ∧ underscored key ∈ default_keys ∧
    config_screen o [key] s = [Printed v] ∧ config_exit o [key] s = 0%N.

(** A call that fails prints nothing. *)
Definition C106_full : Prop :=
  ∀ (o : opts) (keys : list string) (s : sys), config_exit o keys s ≠ 0%N → config_screen o keys s = [].
(** A key may be written with dashes. *)
Definition C106_dashes_full : Prop :=
  ∀ (o : opts) (key : string) (s : sys), config_exit o [underscored key] s = 0%N → config_exit o [key] s = 0%N.

(** ** The loop *)
Definition two_events (kv : string * string) : list event := [Put (fst kv) (JStr (snd kv)); Line (fst kv +:+ "=" +:+ snd kv)].
Lemma bind_get {D : Type} (g : sys → res D) (K : D → P_ unit) (s : sys) :
  pbind (pget g) K s =
  match g s with Ok d => POut (po_trace (K d s)) (po_sys (K d s)) (po_ev (K d s)) (po_res (K d s)) | Err e => POut [] s [] (Err e) end.
Proof. unfold pbind, pget, plift, sget. cbn [so_res so_trace so_sys po_res po_trace po_sys po_ev]. by destruct (g s). Qed.
Lemma bind_run (m : P_ unit) (K : P_ unit) (s : sys) (evs : list event) (r : res unit) :
  m s = POut [] s evs r →
  pbind m (λ _, K) s = match r with Ok _ => POut (po_trace (K s)) (po_sys (K s)) (evs ++ po_ev (K s)) (po_res (K s)) | Err e => POut [] s evs (Err e) end.
Proof. intros H. unfold pbind. rewrite H. cbn [po_res po_trace po_sys po_ev]. by destruct r as [[]|]. Qed.
Lemma one_key (r : res (string * string)) (m : P_ unit) (s : sys) :
  pbind (pbind (pget (λ _, r)) (λ kv, pbind (say (Put (fst kv) (JStr (snd kv)))) (λ _, say (Line (fst kv +:+ "=" +:+ snd kv))))) (λ _, m) s =
  match r with
  | Ok kv => POut (po_trace (m s)) (po_sys (m s)) (two_events kv ++ po_ev (m s)) (po_res (m s))
  | Err e => POut [] s [] (Err e)
  end.
Proof. destruct r as [kv|e]; reflexivity. Qed.
Lemma config_loop (o : opts) (d : derived) (s : sys) : ∀ ks : list string, ∃ (oks rest : list string) (kvs : list (string * string)) (r : res unit),
  ks = oks ++ rest ∧ Forall2 (λ key kv, config_value (o_config o) (o_files o) d key = Ok kv) oks kvs ∧
  pfor ks (λ key, pbind (pget (λ _, config_value (o_config o) (o_files o) d key)) (λ kv, pbind (say (Put (fst kv) (JStr (snd kv)))) (λ _, say (Line (fst kv +:+ "=" +:+ snd kv))))) s =
    POut [] s (concat (two_events <$> kvs)) r ∧
  ((rest = [] ∧ r = Ok tt) ∨ ∃ bad rest' e, rest = bad :: rest' ∧ config_value (o_config o) (o_files o) d bad = Err e ∧ r = Err e).
Proof.
  induction ks as [|k ks IH].
  - exists [], [], [], (Ok tt). split; [reflexivity|]. split; [constructor|]. split; [reflexivity|]. left. by split.
  - cbn [pfor]. rewrite one_key. destruct (config_value (o_config o) (o_files o) d k) as [kv|e] eqn:Ek.
    + destruct IH as (oks & rest & kvs & r & -> & Hf & Hrun & Hend). exists (k :: oks), rest, (kv :: kvs), r.
      split; [reflexivity|]. split; [by constructor|]. split; [|exact Hend]. rewrite Hrun. reflexivity.
    + exists [], (k :: ks), [], (Err e). split; [reflexivity|]. split; [constructor|]. split; [reflexivity|].
      right. by exists k, ks, e.
Qed.
Lemma value_key (cfg : config) (files : list string) (d : derived) (key k v : string) :
  config_value cfg files d key = Ok (k, v) → k = underscored key.
Proof.
  unfold config_value. intros H.
  repeat match type of H with
  | (if (String.eqb ?a ?b || String.eqb ?a ?c)%bool then _ else _) = _ =>
      destruct (String.eqb_spec a b) as [-> |_]; [injection H as <- _; reflexivity|];
      destruct (String.eqb_spec a c) as [-> |_]; [injection H as <- _; reflexivity|]; cbn [orb] in H
  | (if String.eqb ?a ?b then _ else _) = _ => destruct (String.eqb_spec a b) as [-> |_]; [injection H as <- _; reflexivity|]
  end. discriminate H.
Qed.
Lemma one_screen (o : opts) (s : sys) (d : derived) (key : string) :
  derive (s_fs s) (e_cwd (o_env o)) (o_storage o) (o_name o) = Ok d →
  match config_value (o_config o) (o_files o) d key with
  | Ok kv => config_screen o [key] s = [Printed (snd kv)] ∧ config_exit o [key] s = 0%N
  | Err e => config_screen o [key] s = [] ∧ config_exit o [key] s = exit_of (Err e)
  end.
Proof.
  intros Hd. unfold config_screen, config_exit, main_run. cbn [rn_out dispatch]. rewrite config_one, Hd.
  destruct (config_value (o_config o) (o_files o) d key) as [kv|e]; split; reflexivity.
Qed.
Lemma shown_events (kvs : list (string * string)) : omap (visible false) (concat (two_events <$> kvs)) = (λ kv, Printed (fst kv +:+ "=" +:+ snd kv)) <$> kvs.
Proof. induction kvs as [|kv kvs IH]; [reflexivity|]. cbn. by rewrite IH. Qed.

(** ** What holds *)
(** The lines come in the order of the keys, each with the value that its key alone gives, up to the first key that is refused;
    the call succeeds exactly if none is. *)
Theorem C106_lines_partial (o : opts) (keys : list string) (s : sys) :
  1 < length keys →
  ∃ (good rest lines : list string), keys = good ++ rest ∧ Forall2 (line_for o s) good lines ∧
    config_screen o keys s = Printed <$> lines ∧
    ((rest = [] ∧ config_exit o keys s = 0%N) ∨
     (∃ bad later, rest = bad :: later ∧ config_screen o [bad] s = [] ∧ config_exit o keys s = config_exit o [bad] s ∧ config_exit o [bad] s ≠ 0%N)).
Proof.
  intros Hl. destruct (derive (s_fs s) (e_cwd (o_env o)) (o_storage o) (o_name o)) as [d|e] eqn:Ed.
  - destruct (config_loop o d s keys) as (oks & rest & kvs & r & Hk & Hf & Hrun & Hend).
    exists oks, rest, ((λ kv : string * string, fst kv +:+ "=" +:+ snd kv) <$> kvs).
    split; [exact Hk|]. split.
    { clear Hk Hrun Hl. induction Hf as [|key [k v] oks kvs Hv Hf IH]; [constructor|]. cbn [fmap list_fmap]. constructor; [|exact IH].
      exists v. pose proof (one_screen o s d key Ed) as H1. rewrite Hv in H1. destruct H1 as [Hs He].
      cbn [fst snd]. rewrite <-(value_key _ _ _ _ _ _ Hv). split; [reflexivity|]. split; [exact (known_key _ _ _ _ _ _ Hv)|]. by split. }
    assert (config_cmd o (Some keys) s =
      match r with
      | Ok _ => POut [] s (concat (two_events <$> kvs) ++ [Put "bind_mounts" (JArr (bind_json <$> c_binds (o_config o))); Put "config_files_list" (JArr (JStr <$> o_files o))]) (Ok tt)
      | Err er => POut [] s (concat (two_events <$> kvs)) (Err er)
      end) as Hc.
    { unfold config_cmd. cbv zeta. cbn [default from_option id]. apply Nat.ltb_lt in Hl. rewrite Hl.
      rewrite bind_get, Ed. rewrite (bind_run _ _ _ _ _ Hrun). destruct r as [[]|er]; reflexivity. }
    assert (config_screen o keys s = (λ kv, Printed (fst kv +:+ "=" +:+ snd kv)) <$> kvs ∧ config_exit o keys s = exit_of r) as [Hs He].
    { unfold config_screen, config_exit, main_run. cbn [rn_out dispatch]. rewrite Hc. destruct r as [[]|er]; cbn [po_res po_ev Output.finish oc_screen oc_exit].
      - rewrite omap_app, shown_events. split; [|reflexivity]. cbn [omap list_omap visible]. by rewrite app_nil_r.
      - by rewrite shown_events. }
    split; [rewrite Hs; rewrite <-list_fmap_compose; reflexivity|].
    destruct Hend as [[-> ->]|(bad & later & e & -> & Hb & ->)]; [left; by split|]. right. exists bad, later. split; [reflexivity|].
    pose proof (one_screen o s d bad Ed) as H1. rewrite Hb in H1. destruct H1 as [Hs1 He1]. split; [exact Hs1|]. rewrite He, He1.
    split; [reflexivity|]. by destruct e.
  - destruct keys as [|bad later]; [cbn in Hl; lia|]. exists [], (bad :: later), []. split; [reflexivity|]. split; [constructor|].
    assert (∀ ks, config_cmd o (Some ks) s = POut [] s [] (Err e)) as Hc.
    { intros ks. unfold config_cmd. cbv zeta. rewrite bind_get, Ed. reflexivity. }
    unfold config_screen, config_exit, main_run. cbn [rn_out dispatch]. rewrite (Hc (bad :: later)). split; [reflexivity|]. right. exists bad, later. rewrite (Hc [bad]).
    split; [reflexivity|]. split; [reflexivity|]. split; [reflexivity|]. by destruct e.
Qed.
Print Assumptions C106_lines_partial.

(** ** What does not *)
(** `config name colour` prints the name and fails. *)
Theorem C106_refuted : ¬ C106_full.
Proof.
  intros H. assert (config_exit status_opts ["name"; "colour"] two_dev_sys ≠ 0%N) as Hx.
  { assert (config_exit status_opts ["name"; "colour"] two_dev_sys = 1%N) as E by (vm_compute; reflexivity). rewrite E. discriminate. }
  pose proof (H status_opts ["name"; "colour"] two_dev_sys Hx) as K.
  assert (length (config_screen status_opts ["name"; "colour"] two_dev_sys) = 1) as E by (vm_compute; reflexivity).
  rewrite K in E. discriminate E.
Qed.
Print Assumptions C106_refuted.
(** `upper-cwd` is known, `no-default-binds` is not. *)
Theorem C106_dashes_refuted : ¬ C106_dashes_full.
Proof.
  intros H. assert (config_exit status_opts [underscored "no-default-binds"] two_dev_sys = 0%N) as E0 by (vm_compute; reflexivity).
  pose proof (H status_opts "no-default-binds" two_dev_sys E0) as K.
  assert (config_exit status_opts ["no-default-binds"] two_dev_sys = 1%N) as E by (vm_compute; reflexivity). rewrite K in E. discriminate E.
Qed.
Print Assumptions C106_dashes_refuted.
(** Two keys: two lines, in this order. *)
Example C106_nonvacuous :
  config_screen status_opts ["upper-cwd"; "net"] two_dev_sys =
    [Printed ("upper_cwd=" +:+ path_str ["sbx"; "a"; "upper"; home_hash]); Printed ("net=" +:+ show_net (c_net (o_config status_opts)))] ∧
  config_exit status_opts ["upper-cwd"; "net"] two_dev_sys = 0%N ∧ config_exit status_opts ["upper-cwd"] two_dev_sys = 0%N.
Proof. split; [|split]; vm_compute; reflexivity. Qed.
