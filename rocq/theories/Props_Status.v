(** * C74: what `status` prints, as text and as JSON.
    Model: Output.v [status_cmd], [to_json]; Status.v [display]. *)
From Verif Require Export Output Props_Counts Props_Exec Props_Names Props_Delete.

(** ** Specification *)
(** A file name that is UTF-8; one that also has no line break. *)
Definition clean (x : string) : Prop := comp_ok x ∧ utf8_valid x = true.
Definition nl : ascii := "010".
Definition tame (x : string) : Prop := clean x ∧ nl ∉ to_bytes x.
(** What a line or an object is about: the operation, the path, and the old path if it was renamed. *)
Definition label (c : change) : operation * path * option path :=
  (c_op c, c_dest c, match c_op c with ORename => d_path <$> c_source c | _ => None end).
(** The bytes on the terminal. *)
Definition terminal (screen : list seen) : list ascii :=
  mjoin ((λ v, match v with Printed x => to_bytes x ++ [nl] | Asked => [] end) <$> screen).
(** The changes `status` reports. *)
Definition reported (o : opts) (patterns : list string) (s : sys) : res (list change) :=
  rbind (status (o_env o) (s_fs s) (upper_of (o_storage o) (o_name o)) (o_ignored o) patterns)
    (λ r, Ok (default [] (sr_changes r))).

(** ** The two outputs are about the same changes, in the same order *)
Lemma pfor_say {A : Type} (g : A → event) (l : list A) (s : sys) :
  pfor l (λ c, say (g c)) s = POut [] s (g <$> l) (Ok tt).
Proof.
  induction l as [|x l IH]; [done|]. cbn [pfor]. unfold pbind at 1. cbn [say po_res po_trace po_sys po_ev].
  rewrite IH. reflexivity.
Qed.
Definition head_lines (r : status_report) : list event :=
  match sr_changes r with
  | Some _ => [Line (newline +:+ "Matching changes:")]
  | None => [Line (newline +:+ "No matching changes")]
  end.
Definition tail_lines (r : status_report) : list event :=
  (if sr_other r =? 0 then []
   else [Line (newline +:+ show_nat (sr_other r) +:+ " external or non-matching changes")]) ++ [Line newline].
Lemma status_cmd_shape (o : opts) (patterns : list string) (s : sys) :
  status_cmd o patterns s =
  match status (o_env o) (s_fs s) (upper_of (o_storage o) (o_name o)) (o_ignored o) patterns with
  | Ok r => POut [] s
      (head_lines r ++ ((λ c, Line (lossy (display (e_cwd (o_env o)) c))) <$> default [] (sr_changes r)) ++
       [Put "changes" (JArr (to_json <$> default [] (sr_changes r)))] ++ tail_lines r) (Ok tt)
  | Err e => POut [] s [] (Err e)
  end.
Proof.
  unfold status_cmd. unfold pbind at 1. unfold pget at 1, plift, sget. cbn [so_res so_trace so_sys po_res po_trace po_sys po_ev].
  destruct (status (o_env o) (s_fs s) (upper_of (o_storage o) (o_name o)) (o_ignored o) patterns) as [[cs other]|e]; [|done].
  cbn [po_res po_trace po_sys po_ev].
  unfold head_lines, tail_lines. cbn [sr_changes sr_other]. destruct cs as [l|].
  - unfold pbind. cbn [say po_res po_trace po_sys po_ev].
    rewrite (pfor_say (λ c, Line (lossy (display (e_cwd (o_env o)) c)))). cbn [po_res po_trace po_sys po_ev].
    destruct (other =? 0); unfold pret, plift, sret; cbn [so_res so_trace so_sys po_res po_trace po_sys po_ev default]; reflexivity.
  - unfold pbind. cbn [say po_res po_trace po_sys po_ev].
    destruct (other =? 0); unfold pret, plift, sret; cbn [so_res so_trace so_sys po_res po_trace po_sys po_ev default]; reflexivity.
Qed.

Lemma fields_lines (l : list event) (m : gmap string Output.json) : (∀ v, v ∈ l → ∃ x, v = Line x) →
  foldl (λ m v, match v with Put k x => <[k := x]> m | _ => m end) m l = m.
Proof.
  revert m. induction l as [|v l IH]; intros m H; [done|]. cbn [foldl].
  destruct (H v (elem_of_list_here _ _)) as [x ->]. apply IH. intros w Hw. apply H. by right.
Qed.
Lemma head_is_line (r : status_report) : ∀ v, v ∈ head_lines r → ∃ x, v = Line x.
Proof. intros v. unfold head_lines. destruct (sr_changes r); intros H; apply elem_of_list_singleton in H as ->; by eexists. Qed.
Lemma tail_is_line (r : status_report) : ∀ v, v ∈ tail_lines r → ∃ x, v = Line x.
Proof.
  intros v. unfold tail_lines. destruct (sr_other r =? 0); cbn [app]; intros H.
  - apply elem_of_list_singleton in H as ->; by eexists.
  - apply elem_of_cons in H as [-> |H]; [by eexists|]. apply elem_of_list_singleton in H as ->; by eexists.
Qed.

Lemma omap_lines (g : change → string) (l : list change) :
  omap (visible false) ((λ c, Line (g c)) <$> l) = (λ c, Printed (g c)) <$> l.
Proof. induction l as [|c l IH]; [done|]. cbn. by rewrite IH. Qed.

(** Whatever is on the machine: with --json the field "changes" has one object for each line that is printed
    without, in the same order and about the same change. If one fails, so does the other. *)
Theorem C74_json_like_text (o : opts) (patterns : list string) (s : sys) :
  let text := rn_out (main_run o (Ok tt) false (AStatus patterns) s) in
  let json := rn_out (main_run o (Ok tt) true (AStatus patterns) s) in
  (∃ l before after obj, reported o patterns s = Ok l ∧ oc_exit text = 0%N ∧ oc_exit json = 0%N ∧
     oc_screen text = before ++ ((λ c, Printed (lossy (display (e_cwd (o_env o)) c))) <$> l) ++ after ∧
     length before = 1 ∧ length after ≤ 2 ∧
     oc_object json = Some obj ∧ obj !! "changes" = Some (JArr (to_json <$> l))) ∨
  (∃ e, reported o patterns s = Err e ∧ oc_screen text = [] ∧ oc_exit text = oc_exit json ∧ oc_exit json ≠ 0%N).
Proof.
  cbv zeta. unfold main_run. cbn [rn_out dispatch]. rewrite status_cmd_shape. unfold reported.
  destruct (status (o_env o) (s_fs s) (upper_of (o_storage o) (o_name o)) (o_ignored o) patterns) as [r|e];
    cbn [po_res po_trace po_sys po_ev Output.finish oc_screen oc_object oc_exit rbind exit_of object_of].
  - left. set (l := default [] (sr_changes r)).
    exists l, (omap (visible false) (head_lines r)), (omap (visible false) (tail_lines r)). eexists.
    split; [done|]. split; [done|]. split; [done|]. split; [|split; [|split; [|split; [reflexivity|]]]].
    + rewrite !omap_app, omap_lines. reflexivity.
    + unfold head_lines. by destruct (sr_changes r).
    + unfold tail_lines. destruct (sr_other r =? 0); cbn; lia.
    + rewrite lookup_insert_ne by discriminate. unfold fields. rewrite !foldl_app.
      rewrite (fields_lines (tail_lines r)) by apply tail_is_line. cbn [foldl]. apply lookup_insert.
  - right. exists e. split; [done|]. split; [done|]. split; [done|]. by destruct e.
Qed.
Print Assumptions C74_json_like_text.

(** ** JSON objects identify the changes *)
Lemma utf8_app (s t : string) : utf8_valid s = true → utf8_valid t = true → utf8_valid (s +:+ t) = true.
Proof. unfold utf8_valid. rewrite to_bytes_app. apply utf8_join. Qed.
Lemma join_comps_ind (P : string → Prop) (p : path) :
  P "" → (∀ a b, P a → P b → P (a +:+ b)) → P "/" → Forall P p → P (join_comps p).
Proof.
  intros H0 Happ Hs. induction p as [|c p IH]; intros Hp; [done|]. apply Forall_cons in Hp as [Hc Hp].
  destruct p as [|d p]; [done|]. rewrite join_comps_cons by done. apply Happ; [done|]. apply Happ; [done|]. by apply IH.
Qed.
Lemma clean_join (p : path) : Forall clean p → utf8_valid (join_comps p) = true.
Proof.
  intros H. apply (join_comps_ind (λ x, utf8_valid x = true)); [done|apply utf8_app|done|].
  eapply Forall_impl; [exact H|]. by intros x [_ ?].
Qed.
Lemma clean_str (p : path) : Forall clean p → utf8_valid (path_str p) = true.
Proof. intros H. unfold path_str. apply utf8_app; [done|by apply clean_join]. Qed.
Lemma clean_comps (p : path) : Forall clean p → Forall comp_ok p.
Proof. intros H. eapply Forall_impl; [exact H|]. by intros x [? _]. Qed.
Lemma display_path_inj (p q : path) : Forall clean p → Forall clean q → display_path p = display_path q → p = q.
Proof.
  intros Hp Hq. unfold display_path. rewrite !lossy_valid by (by apply clean_str).
  apply path_str_inj; by apply clean_comps.
Qed.
Lemma JStr_inj (a b : string) : JStr a = JStr b → a = b.
Proof. by intros [= ->]. Qed.
Lemma JObj_cons (k : string) (a b : Output.json) (l l' : list (string * Output.json)) :
  JObj ((k, a) :: l) = JObj ((k, b) :: l') → a = b ∧ JObj l = JObj l'.
Proof. by intros [= -> ->]. Qed.
Definition clean_change (c : change) : Prop :=
  Forall clean (c_dest c) ∧ (∀ d, c_source c = Some d → Forall clean (d_path d)) ∧
  (∀ d, c_staged c = Some d → Forall clean (d_path d)).
Lemma opt_json_inj (a b : option details) :
  (∀ d, a = Some d → Forall clean (d_path d)) → (∀ d, b = Some d → Forall clean (d_path d)) →
  opt_json (d_path <$> a) = opt_json (d_path <$> b) → d_path <$> a = d_path <$> b.
Proof.
  intros Ha Hb E. destruct a as [a|], b as [b|]; cbn in E |- *; [|discriminate E|discriminate E|done].
  apply JStr_inj in E. f_equal. apply display_path_inj; [by apply Ha|by apply Hb|exact E].
Qed.
Theorem C74_json_identifies_partial (c d : change) :
  clean_change c → clean_change d → to_json c = to_json d →
  label c = label d ∧ d_path <$> c_source c = d_path <$> c_source d ∧ d_path <$> c_staged c = d_path <$> c_staged d.
Proof.
  intros (C1 & C2 & C3) (D1 & D2 & D3) E. unfold to_json in E. cbn [app] in E.
  apply JObj_cons in E as [E1 E]. apply JObj_cons in E as [E2 E]. apply JObj_cons in E as [E3 E].
  apply JObj_cons in E as [E4 E]. apply JObj_cons in E as [_ E].
  apply JStr_inj, display_path_inj in E1; [|exact C1|exact D1]. unfold label. rewrite E1.
  apply opt_json_inj in E3; [|exact C2|exact D2]. apply opt_json_inj in E4; [|exact C3|exact D3].
  split; [|by split]. rewrite E3.
  destruct (c_op c) as [[]| | |[]], (c_op d) as [[]| | |[]]; cbn in E2, E; try discriminate E2; try discriminate E; reflexivity.
Qed.
Print Assumptions C74_json_identifies_partial.

(** ** The text identifies the changes *)
(** Changes whose text can be read back: the names have no line break; a removal names the path removed (it
    always does, see [listed_text]); the old path of a renamed directory has no ">". *)
Definition text_ok (c : change) : Prop :=
  Forall tame (c_dest c) ∧
  match c_op c with
  | ORemove => ∃ d, c_source c = Some d ∧ d_path d = c_dest c
  | ORename => ∃ d, c_source c = Some d ∧ Forall tame (d_path d) ∧ Forall (λ x, ">"%char ∉ to_bytes x) (d_path d)
  | _ => True
  end.

Lemma sep_inj {A : Type} (x : A) (a b s t : list A) : x ∉ a → x ∉ b → a ++ x :: s = b ++ x :: t → a = b ∧ s = t.
Proof.
  revert b. induction a as [|y a IH]; intros [|z b] Ha Hb E; cbn in E.
  - by injection E.
  - injection E as -> E. exfalso. apply Hb. left.
  - injection E as -> E. exfalso. apply Ha. left.
  - injection E as -> E. apply IH in E as [-> ->]; [done|..]; intros H; [apply Ha|apply Hb]; by right.
Qed.
Lemma lines_inj (l k : list (list ascii)) (s t : list ascii) :
  Forall (λ x, x ≠ [] ∧ nl ∉ x) l → Forall (λ x, x ≠ [] ∧ nl ∉ x) k →
  mjoin ((λ x, x ++ [nl]) <$> l) ++ nl :: s = mjoin ((λ x, x ++ [nl]) <$> k) ++ nl :: t → l = k.
Proof.
  revert k. induction l as [|x l IH]; intros [|y k] Hl Hk E; [done|..].
  - apply Forall_cons in Hk as [[H1 H2] _]. cbn in E. destruct y as [|a y]; [done|]. cbn in E. injection E as <- _.
    exfalso. apply H2. left.
  - apply Forall_cons in Hl as [[H1 H2] _]. cbn in E. destruct x as [|a x]; [done|]. cbn in E. injection E as -> _.
    exfalso. apply H2. left.
  - apply Forall_cons in Hl as [[Hx1 Hx2] Hl]. apply Forall_cons in Hk as [[Hy1 Hy2] Hk].
    cbn [fmap list_fmap mjoin list_join] in E. rewrite <-!app_assoc in E. cbn [app] in E.
    apply sep_inj in E as [-> E]; [|done|done]. f_equal. by apply IH.
Qed.

Lemma join_comps_inj (p q : path) : Forall comp_ok p → Forall comp_ok q → join_comps p = join_comps q → p = q.
Proof.
  intros Hp Hq E. apply path_str_inj; [done|done|]. unfold path_str. by rewrite E.
Qed.
Lemma join_not_abs (p q : path) : Forall comp_ok p → join_comps p ≠ path_str q.
Proof.
  intros Hp E. destruct p as [|c p]; [discriminate E|]. apply Forall_cons in Hp as [Hc _].
  assert (∃ r, join_comps (c :: p) = c +:+ r) as [r Hr].
  { destruct p as [|d p]; [exists ""; cbn [join_comps]; apply to_bytes_inj; rewrite to_bytes_app; symmetry; apply app_nil_r|]. exists ("/" +:+ join_comps (d :: p)). by rewrite join_comps_cons. }
  rewrite Hr in E. destruct Hc as (Hne & _ & _ & Hs). destruct c as [|a c]; [done|].
  unfold path_str in E. cbn in E. injection E as -> _. 
  assert (contains "/" (String "/" c) = true) as E'; [|congruence]. apply contains_spec. by exists "", c.
Qed.
Lemma rel_to_inj (cwd p q : path) : Forall comp_ok p → Forall comp_ok q → rel_to cwd p = rel_to cwd q → p = q.
Proof.
  intros Hp Hq. unfold rel_to.
  destruct (path_strip cwd p) as [r|] eqn:Ep, (path_strip cwd q) as [t|] eqn:Eq.
  - apply path_strip_spec in Ep, Eq. subst p q. apply Forall_app in Hp as [_ Hp]. apply Forall_app in Hq as [_ Hq].
    intros E. f_equal. by apply join_comps_inj.
  - apply path_strip_spec in Ep. subst p. apply Forall_app in Hp as [_ Hp]. intros E. by apply join_not_abs in E.
  - apply path_strip_spec in Eq. subst q. apply Forall_app in Hq as [_ Hq]. intros E. symmetry in E. by apply join_not_abs in E.
  - by apply path_str_inj.
Qed.
Lemma rel_to_ind (P : string → Prop) (cwd p : path) :
  P "" → (∀ a b, P a → P b → P (a +:+ b)) → P "/" → Forall P p → P (rel_to cwd p).
Proof.
  intros H0 Happ Hs Hp. unfold rel_to. destruct (path_strip cwd p) as [r|] eqn:E.
  - apply path_strip_spec in E. subst p. apply Forall_app in Hp as [_ Hp]. by apply join_comps_ind.
  - unfold path_str. apply Happ; [done|]. by apply join_comps_ind.
Qed.
Lemma absent_app (x : ascii) (s t : string) : x ∉ to_bytes s → x ∉ to_bytes t → x ∉ to_bytes (s +:+ t).
Proof. rewrite to_bytes_app. intros H1 H2 H. apply elem_of_app in H as [H|H]; contradiction. Qed.
Lemma rel_to_without (x : ascii) (cwd p : path) : x ≠ "/"%char → Forall (λ y, x ∉ to_bytes y) p → x ∉ to_bytes (rel_to cwd p).
Proof.
  intros Hx. apply (rel_to_ind (λ y, x ∉ to_bytes y)).
  - apply not_elem_of_nil.
  - apply absent_app.
  - cbn. intros H. by apply elem_of_list_singleton in H.
Qed.
Lemma rel_to_utf8 (cwd p : path) : Forall clean p → utf8_valid (rel_to cwd p) = true.
Proof.
  intros H. apply (rel_to_ind (λ y, utf8_valid y = true)); [done|apply utf8_app|done|].
  eapply Forall_impl; [exact H|]. by intros x [_ ?].
Qed.
Lemma tame_clean (p : path) : Forall tame p → Forall clean p.
Proof. intros H. eapply Forall_impl; [exact H|]. by intros x [? _]. Qed.
Lemma tame_line (p : path) : Forall tame p → Forall (λ y, nl ∉ to_bytes y) p.
Proof. intros H. eapply Forall_impl; [exact H|]. by intros x [_ ?]. Qed.
Lemma tame_comps (p : path) : Forall tame p → Forall comp_ok p.
Proof. intros H. by apply clean_comps, tame_clean. Qed.

(** A property of text that all literals of [display] have. *)
Lemma display_ind (P : string → Prop) (cwd : path) (c : change) :
  text_ok c → (∀ a b, P a → P b → P (a +:+ b)) →
  (∀ x, ascii_only x = true → nl ∉ to_bytes x → P x) → (∀ p, Forall tame p → P (rel_to cwd p)) → P (display cwd c).
Proof.
  intros [Hd Hc] Happ Hlit Hrel. pose proof (Hrel _ Hd) as Hdst. unfold display.
  assert (∀ x, ascii_only x = true → bool_decide (nl ∈ to_bytes x) = false → P x) as Hl.
  { intros x H1 H2. apply Hlit; [done|]. by apply bool_decide_eq_false in H2. }
  destruct (c_op c) as [[]| | |er].
  - apply Happ; [apply Hl; reflexivity|done].
  - apply Happ; [apply Hl; reflexivity|done].
  - destruct Hc as (d & -> & ->). apply Happ; [apply Hl; reflexivity|done].
  - destruct Hc as (d & -> & Ht & _). apply Happ; [apply Hl; reflexivity|]. apply Happ; [by apply Hrel|].
    apply Happ; [apply Hl; reflexivity|done].
  - apply Happ; [apply Hl; reflexivity|]. apply Happ; [done|]. apply Happ; [apply Hl; reflexivity|].
    apply Happ; [|apply Hl; reflexivity]. destruct er; apply Hl; reflexivity.
Qed.
Lemma display_utf8 (cwd : path) (c : change) : text_ok c → utf8_valid (display cwd c) = true.
Proof.
  intros H. apply (display_ind (λ x, utf8_valid x = true)); [done|apply utf8_app| |].
  - intros x Hx _. by apply ascii_only_utf8.
  - intros p Hp. by apply rel_to_utf8, tame_clean.
Qed.
Lemma display_line (cwd : path) (c : change) : text_ok c → nl ∉ to_bytes (display cwd c).
Proof.
  intros H. apply (display_ind (λ x, nl ∉ to_bytes x)); [done|apply absent_app|done|].
  intros p Hp. apply rel_to_without; [discriminate|by apply tame_line].
Qed.

Lemma string_app_inv_l (a s t : string) : a +:+ s = a +:+ t → s = t.
Proof.
  intros E. apply (f_equal to_bytes) in E. rewrite !to_bytes_app in E. apply app_inv_head in E. by apply to_bytes_inj.
Qed.
Lemma string_app_inv_r (a s t : string) : s +:+ a = t +:+ a → s = t.
Proof.
  intros E. apply (f_equal to_bytes) in E. rewrite !to_bytes_app in E. apply app_inv_tail in E. by apply to_bytes_inj.
Qed.
Lemma arrow_inj (a b s t : string) : ">"%char ∉ to_bytes a → ">"%char ∉ to_bytes b →
  a +:+ " -> " +:+ s = b +:+ " -> " +:+ t → a = b ∧ s = t.
Proof.
  intros Ha Hb E. apply (f_equal to_bytes) in E. rewrite !to_bytes_app in E. cbn [to_bytes] in E. cbn [app] in E.
  change (" "%char :: "-"%char :: ">"%char :: " "%char :: to_bytes s) with ([" "%char; "-"%char] ++ ">"%char :: " "%char :: to_bytes s) in E.
  change (" "%char :: "-"%char :: ">"%char :: " "%char :: to_bytes t) with ([" "%char; "-"%char] ++ ">"%char :: " "%char :: to_bytes t) in E.
  rewrite !app_assoc in E. apply sep_inj in E as [E1 E2].
  - apply app_inv_tail in E1. apply to_bytes_inj in E1. injection E2 as E2. apply to_bytes_inj in E2. done.
  - intros H. apply elem_of_app in H as [H|H]; [contradiction|].
    apply elem_of_cons in H as [H|H]; [discriminate H|]. apply elem_of_list_singleton in H. discriminate H.
  - intros H. apply elem_of_app in H as [H|H]; [contradiction|].
    apply elem_of_cons in H as [H|H]; [discriminate H|]. apply elem_of_list_singleton in H. discriminate H.
Qed.
Lemma error_inj (a b : string) (x y : change_error) :
  a +:+ " (error: " +:+ error_text x +:+ ")" = b +:+ " (error: " +:+ error_text y +:+ ")" → a = b ∧ x = y.
Proof.
  intros E. destruct x, y; try (by apply string_app_inv_r in E); exfalso;
    apply (f_equal to_bytes) in E; rewrite !to_bytes_app in E; apply (f_equal (@rev ascii)) in E;
    rewrite !rev_app_distr in E; cbn in E; discriminate E.
Qed.
Lemma display_inj (cwd : path) (c d : change) : text_ok c → text_ok d → display cwd c = display cwd d → label c = label d.
Proof.
  intros [Hc1 Hc2] [Hd1 Hd2]. pose proof (tame_comps _ Hc1) as Hc. pose proof (tame_comps _ Hd1) as Hd.
  unfold display, label.
  destruct (c_op c) as [[]| | |x], (c_op d) as [[]| | |y]; intros E; try discriminate E.
  - apply string_app_inv_l, rel_to_inj in E; [by rewrite E|done|done].
  - apply string_app_inv_l, rel_to_inj in E; [by rewrite E|done|done].
  - destruct Hc2 as (d1 & F1 & E1), Hd2 as (d2 & F2 & E2). rewrite F1, F2, E1, E2 in E.
    apply string_app_inv_l, rel_to_inj in E; [by rewrite E|done|done].
  - destruct Hc2 as (d1 & F1 & T1 & G1), Hd2 as (d2 & F2 & T2 & G2). rewrite F1, F2 in E. rewrite F1, F2.
    apply string_app_inv_l, arrow_inj in E as [E1 E2];
      [|apply rel_to_without; [discriminate|done]|apply rel_to_without; [discriminate|done]].
    apply rel_to_inj in E1; [|by apply tame_comps|by apply tame_comps].
    apply rel_to_inj in E2; [|done|done]. cbn [fmap option_fmap option_map]. by rewrite E1, E2.
  - apply string_app_inv_l, error_inj in E as [E ->]. apply rel_to_inj in E; [by rewrite E|done|done].
Qed.

Lemma terminal_app (a b : list seen) : terminal (a ++ b) = terminal a ++ terminal b.
Proof. unfold terminal. induction a as [|x a IH]; [done|]. cbn [app fmap list_fmap mjoin list_join]. rewrite <-app_assoc. f_equal. exact IH. Qed.
Lemma terminal_lines (g : change → string) (l : list change) :
  terminal ((λ c, Printed (g c)) <$> l) = mjoin ((λ x, x ++ [nl]) <$> ((λ c, to_bytes (g c)) <$> l)).
Proof. unfold terminal. by rewrite <-!list_fmap_compose. Qed.
Lemma tail_text (r : status_report) : ∃ t, terminal (omap (visible false) (tail_lines r)) = nl :: t.
Proof. unfold tail_lines. destruct (sr_other r =? 0); by eexists. Qed.

(** Two runs of `status` that leave the same bytes on the terminal report the same changes. *)
Theorem C74_text_identifies_partial (o : opts) (patterns patterns' : list string) (s s' : sys) (l l' : list change) :
  reported o patterns s = Ok l → reported o patterns' s' = Ok l' → Forall text_ok l → Forall text_ok l' →
  terminal (oc_screen (rn_out (main_run o (Ok tt) false (AStatus patterns) s))) =
  terminal (oc_screen (rn_out (main_run o (Ok tt) false (AStatus patterns') s'))) →
  label <$> l = label <$> l'.
Proof.
  unfold main_run. cbn [rn_out dispatch]. rewrite !status_cmd_shape. unfold reported.
  destruct (status (o_env o) (s_fs s) (upper_of (o_storage o) (o_name o)) (o_ignored o) patterns) as [r|e]; [|intros H; discriminate H].
  destruct (status (o_env o) (s_fs s') (upper_of (o_storage o) (o_name o)) (o_ignored o) patterns') as [r'|e]; [|intros _ H; discriminate H].
  cbn [po_res po_trace po_sys po_ev Output.finish oc_screen rbind]. intros [= <-] [= <-] Hl Hl'.
  rewrite !omap_app, !omap_lines, !terminal_app, !terminal_lines.
  destruct (tail_text r) as [t ->], (tail_text r') as [t' ->].
  change (terminal (omap (visible false) [Put "changes" (JArr (to_json <$> default [] (sr_changes r)))])) with ([] : list ascii).
  change (terminal (omap (visible false) [Put "changes" (JArr (to_json <$> default [] (sr_changes r')))])) with ([] : list ascii).
  cbn [app]. revert Hl Hl'. unfold head_lines. set (cwd := e_cwd (o_env o)).
  assert (∀ k k' : list change, Forall text_ok k → Forall text_ok k' →
    mjoin ((λ x, x ++ [nl]) <$> ((λ c, to_bytes (lossy (display cwd c))) <$> k)) ++ nl :: t =
    mjoin ((λ x, x ++ [nl]) <$> ((λ c, to_bytes (lossy (display cwd c))) <$> k')) ++ nl :: t' →
    label <$> k = label <$> k') as H.
  { intros k k' Hk Hk' E.
    assert (∀ k, Forall text_ok k → Forall (λ x, x ≠ [] ∧ nl ∉ x) ((λ c, to_bytes (lossy (display cwd c))) <$> k)) as Hf.
    { intros j Hj. apply Forall_fmap. eapply Forall_impl; [exact Hj|]. intros c Hc. cbn.
      rewrite lossy_valid by (by apply display_utf8). split; [|by apply display_line].
      unfold display. by destruct (c_op c) as [[]| | |]. }
    apply lines_inj in E; [|by apply Hf|by apply Hf]. clear Hf. clearbody cwd. clear -Hk Hk' E.
    revert k' Hk' E. induction k as [|c k IH]; intros [|d k'] Hk' E; [done|discriminate E|discriminate E|].
    apply Forall_cons in Hk as [Hc Hk]. apply Forall_cons in Hk' as [Hd Hk'].
    rewrite !fmap_cons in E. pose proof (f_equal (head (A:=list ascii)) E) as E1; pose proof (f_equal (tail (A:=list ascii)) E) as E2; cbn in E1, E2; injection E1 as E1. rewrite !fmap_cons. f_equal; [|by apply IH].
    apply to_bytes_inj in E1. rewrite !lossy_valid in E1 by (by apply display_utf8). by eapply display_inj. }
  destruct (sr_changes r) as [k|], (sr_changes r') as [k'|]; cbn [default]; intros Hl Hl' E.
  - apply H; [done|done|]. apply app_inv_head in E. exact E.
  - exfalso. cbn in E. discriminate E.
  - exfalso. cbn in E. discriminate E.
  - done.
Qed.
Print Assumptions C74_text_identifies_partial.

(** In sandboxes without renamed directories only the names matter. *)
Lemma reported_in (o : opts) (patterns : list string) (s : sys) (l : list change) : reported o patterns s = Ok l →
  ∃ all, changes (o_env o) (s_fs s) (upper_of (o_storage o) (o_name o)) (o_ignored o) = Ok all ∧ ∀ c, c ∈ l → c ∈ all.
Proof.
  unfold reported. intros H.
  destruct (changes (o_env o) (s_fs s) (upper_of (o_storage o) (o_name o)) (o_ignored o)) as [all|e] eqn:E.
  - exists all. split; [done|]. intros c Hc.
    destruct (status (o_env o) (s_fs s) (upper_of (o_storage o) (o_name o)) (o_ignored o) patterns) as [r|e] eqn:Er; [|discriminate H].
    cbn [rbind] in H. injection H as <-.
    pose proof (C16_status_prints_each_once _ _ _ _ _ _ _ E Er) as K. cbv zeta in K.
    destruct (sr_changes r) as [k|]; [|by apply elem_of_nil in Hc]. destruct K as [K _]. cbn [default] in Hc.
    rewrite K in Hc. apply elem_of_list_filter in Hc as [_ Hc].
    destruct (C18_selection_by_pattern (e_glob (o_env o)) (e_cwd (o_env o)) patterns all) as [Hsub _].
    by eapply elem_of_submseteq; [|apply sublist_submseteq].
  - unfold status in H. rewrite E in H. discriminate H.
Qed.
Lemma listed_text (o : opts) (patterns : list string) (s : sys) (l : list change) (ms : list path) :
  env_ok (o_env o) → sandbox_ok (s_fs s) (upper_of (o_storage o) (o_name o)) ms → reported o patterns s = Ok l →
  (∀ c, c ∈ l → Forall tame (c_dest c)) → Forall text_ok l.
Proof.
  intros He Hok Hr Ht. destruct (reported_in o patterns s l Hr) as (all & Hall & Hin). apply Forall_forall. intros c Hc.
  split; [by apply Ht|].
  destruct (changes_sound _ _ ms Hok _ _ all He Hall c (Hin c Hc)) as (m & x & n & _ & _ & H).
  destruct H as [(_ & q & k & _ & _ & ->)|[(_ & _ & ->)|(_ & _ & ->)]]; cbn; [|done|done]. by eexists.
Qed.

(** ** Witnesses *)
Definition status_opts : opts :=
  Opts 18 same_order (λ _, false) demo_env ["sbx"] "a" true (Ok "") (λ _ _, "") (Ok tt) (λ _, "failed") demo_config [].
Definition status_sys (names : list string) : sys :=
  Sys (list_to_map
    ([ ([], dir0); (["home"], dir0); (["sbx"], dir0); (["sbx"; "a"], dir0); (["sbx"; "a"; "upper"], dir0);
       (["sbx"; "a"; "upper"; "F4"], dir0); (["sbx"; "a"; "upper"; "F4"; "home"], dir0) ] ++
     ((λ x, (["sbx"; "a"; "upper"; "F4"; "home"; x], file_ "text")) <$> names))) ∅ [].
Definition tameb (x : string) : bool :=
  (comp_okb x && utf8_valid x && negb (existsb (Ascii.eqb nl) (to_bytes x)))%bool.
Lemma tameb_spec (x : string) : tameb x = true → tame x.
Proof.
  unfold tameb, tame, clean. rewrite !andb_true_iff, comp_okb_spec, negb_true_iff. intros [[H1 H2] H3].
  split; [done|]. intros H. apply not_true_iff_false in H3. apply H3, existsb_exists.
  exists nl. split; [by apply elem_of_list_In|apply Ascii.eqb_refl].
Qed.
Lemma tames (l : list change) : forallb (λ c, forallb tameb (c_dest c)) l = true → ∀ c, c ∈ l → Forall tame (c_dest c).
Proof.
  rewrite forallb_forall. intros H c Hc. apply elem_of_list_In, H in Hc. rewrite forallb_forall in Hc.
  apply Forall_forall. intros x Hx. apply tameb_spec, Hc. by apply elem_of_list_In.
Qed.
Example C74_nonvacuous :
  let s := status_sys ["a"; "b"] in
  sandbox_ok (s_fs s) (upper_of ["sbx"] "a") [[]] ∧
  ∃ l, reported status_opts ["/**"] s = Ok l ∧ Forall text_ok l ∧ Forall clean_change l ∧
    (label <$> l) = [(OSet Create, ["home"; "a"], None); (OSet Create, ["home"; "b"], None)] ∧
    terminal (oc_screen (rn_out (main_run status_opts (Ok tt) false (AStatus ["/**"]) s))) =
    to_bytes (newline +:+ "Matching changes:" +:+ newline +:+ "   + a" +:+ newline +:+ "   + b" +:+ newline +:+ newline +:+ newline).
Proof.
  cbv zeta. assert (sandbox_ok (s_fs (status_sys ["a"; "b"])) (upper_of ["sbx"] "a") [[]]) as Hok.
  { apply sandbox_okb_spec. vm_compute. reflexivity. }
  split; [exact Hok|]. eexists. split; [vm_compute; reflexivity|]. split; [|split; [|split; vm_compute; reflexivity]].
  - eapply (listed_text status_opts ["/**"] (status_sys ["a"; "b"]) _ [[]]); [exact demo_env_ok|exact Hok|vm_compute; reflexivity|].
    apply tames. vm_compute. reflexivity.
  - assert (∀ p, forallb tameb p = true → Forall clean p) as Hp.
    { intros p H. apply tame_clean, Forall_forall. intros x Hx. apply tameb_spec. rewrite forallb_forall in H.
      apply H. by apply elem_of_list_In. }
    assert (∀ c, (forallb tameb (c_dest c) && match c_source c with Some d => forallb tameb (d_path d) | None => true end &&
      match c_staged c with Some d => forallb tameb (d_path d) | None => true end)%bool = true → clean_change c) as Hc.
    { intros c. rewrite !andb_true_iff. intros [[H1 H2] H3]. split; [by apply Hp|]. split; intros d E.
      - rewrite E in H2. by apply Hp.
      - rewrite E in H3. by apply Hp. }
    apply Forall_cons. split; [apply Hc; vm_compute; reflexivity|]. apply Forall_singleton. apply Hc. vm_compute. reflexivity.
Qed.

(** In full (1): different changes give different objects. False for names that are not UTF-8: a directory
    with two such files is deleted in the sandbox. *)
Definition C74_json_full : Prop := ∀ o patterns s l c d ms,
  env_ok (o_env o) → sandbox_ok (s_fs s) (upper_of (o_storage o) (o_name o)) ms → reported o patterns s = Ok l →
  c ∈ l → d ∈ l → to_json c = to_json d → label c = label d.
Definition odd_sys : sys :=
  Sys (list_to_map
    [ ([], dir0); (["home"], dir0); (["home"; "d"], dir0); (["home"; "d"; of_bytes [ascii_of_nat 254]], file_ "1");
      (["home"; "d"; of_bytes [ascii_of_nat 255]], file_ "2");
      (["sbx"], dir0); (["sbx"; "a"], dir0); (["sbx"; "a"; "upper"], dir0);
      (["sbx"; "a"; "upper"; "F4"], dir0); (["sbx"; "a"; "upper"; "F4"; "home"], dir0);
      (["sbx"; "a"; "upper"; "F4"; "home"; "d"], wh) ]) ∅ [].
Theorem C74_json_refuted : ¬ C74_json_full.
Proof.
  intros H. assert (∃ c0 c d, reported status_opts ["/**"] odd_sys = Ok [c; d; c0] ∧ to_json c = to_json d ∧ c_dest c ≠ c_dest d)
    as (c0 & c & d & E1 & E2 & E3).
  { eexists _, _, _. split; [vm_compute; reflexivity|]. split; [vm_compute; reflexivity|]. vm_compute. discriminate. }
  assert (label c = label d) as K.
  { eapply (H status_opts ["/**"] odd_sys [c; d; c0] c d [[]]).
    - exact demo_env_ok.
    - apply sandbox_okb_spec. vm_compute. reflexivity.
    - exact E1.
    - left.
    - right. left.
    - exact E2. }
  apply E3. unfold label in K. congruence.
Qed.
Print Assumptions C74_json_refuted.

(** In full (2): different changes give different text. False: a file name may contain a line break, and a
    program in the sandbox can choose it so that it looks like two changes. *)
Definition C74_text_full : Prop := ∀ o patterns s s' l l' ms,
  env_ok (o_env o) → sandbox_ok (s_fs s) (upper_of (o_storage o) (o_name o)) ms →
  sandbox_ok (s_fs s') (upper_of (o_storage o) (o_name o)) ms →
  reported o patterns s = Ok l → reported o patterns s' = Ok l' →
  (∀ c, c ∈ l ++ l' → Forall clean (c_dest c)) →
  terminal (oc_screen (rn_out (main_run o (Ok tt) false (AStatus patterns) s))) =
  terminal (oc_screen (rn_out (main_run o (Ok tt) false (AStatus patterns) s'))) →
  label <$> l = label <$> l'.
Definition two_lines : string := "a" +:+ newline +:+ "   + b".
Theorem C74_text_refuted : ¬ C74_text_full.
Proof.
  intros H.
  assert (∃ c d, reported status_opts ["/**"] (status_sys ["a"; "b"]) = Ok [c; d]) as (c & d & E1).
  { eexists _, _. vm_compute. reflexivity. }
  assert (∃ c, reported status_opts ["/**"] (status_sys [two_lines]) = Ok [c]) as (c' & E2).
  { eexists. vm_compute. reflexivity. }
  assert (forallb (λ c, forallb (λ x, comp_okb x && utf8_valid x)%bool (c_dest c))
    match reported status_opts ["/**"] (status_sys ["a"; "b"]), reported status_opts ["/**"] (status_sys [two_lines]) with
    | Ok x, Ok y => x ++ y | _, _ => [] end = true) as E3 by (vm_compute; reflexivity).
  rewrite E1, E2 in E3.
  assert (label <$> [c; d] = label <$> [c']) as K; [|discriminate K].
  eapply (H status_opts ["/**"] (status_sys ["a"; "b"]) (status_sys [two_lines]) [c; d] [c'] [[]]).
  - exact demo_env_ok.
  - apply sandbox_okb_spec. vm_compute. reflexivity.
  - apply sandbox_okb_spec. vm_compute. reflexivity.
  - exact E1.
  - exact E2.
  - intros x Hx. rewrite forallb_forall in E3. apply elem_of_list_In, E3 in Hx. rewrite forallb_forall in Hx.
    apply Forall_forall. intros y Hy. apply elem_of_list_In, Hx in Hy. apply andb_true_iff in Hy as [Y1 Y2].
    split; [by apply comp_okb_spec|done].
  - vm_compute. reflexivity.
Qed.
Print Assumptions C74_text_refuted.
