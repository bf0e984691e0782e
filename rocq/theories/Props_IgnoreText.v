(** * What the lines of an ignore file mean (C28, C29, C80), stated on their text. *)
From Verif Require Export Props_Ignore.

(** ** Lines with white space around them *)
(** Tab, line feed, vertical tab, form feed, carriage return, space. *)
Definition white (c : ascii) : bool := existsb (Ascii.eqb c) ["009"; "010"; "011"; "012"; "013"; " "]%char.
Lemma white_is (c : ascii) : Ignore.is_space c = white c.
Proof. destruct c as [[] [] [] [] [] [] [] []]; reflexivity. Qed.
Definition blank (s : string) : Prop := ∀ c, c ∈ to_bytes s → white c = true.
(** Text neither starting nor ending with white space. *)
Definition tight (s : string) : Prop :=
  s ≠ "" ∧ (∀ c r, s = String c r → white c = false) ∧ (∀ r c, s = r +:+ String c "" → white c = false).

Lemma trim_start_blank (w s : string) : blank w → trim_start (w +:+ s) = trim_start s.
Proof.
  induction w as [|c w IH]; intros Hw; [done|]. change (String c w +:+ s) with (String c (w +:+ s)).
  cbn [trim_start]. rewrite white_is, (Hw c) by (cbn; left). apply IH. intros d Hd. apply Hw. cbn. by right.
Qed.
Lemma trim_start_tight (c : ascii) (s : string) : white c = false → trim_start (String c s) = String c s.
Proof. intros H. cbn [trim_start]. by rewrite white_is, H. Qed.
Lemma blank_rev (w : string) : blank w → blank (str_rev w).
Proof.
  intros Hw c Hc. apply Hw. clear Hw. induction w as [|d w IH]; [done|].
  change (String d w) with (String d "" +:+ w) in Hc. rewrite str_rev_app, to_bytes_app in Hc. change (str_rev (String d "")) with (String d "") in Hc.
  apply elem_of_app in Hc as [Hc|Hc]; cbn in *; [right; by apply IH|]. apply elem_of_list_singleton in Hc as ->. left.
Qed.
Lemma str_snoc_case (s : string) : s = "" ∨ ∃ r c, s = r +:+ String c "".
Proof.
  destruct (str_rev s) as [|c r] eqn:E; apply (f_equal str_rev) in E; rewrite str_rev_involutive in E; [by left|].
  right. exists (str_rev r), c. rewrite E. change (String c r) with (String c "" +:+ r). by rewrite str_rev_app.
Qed.
Lemma trim_around (w s v : string) : blank w → blank v → tight s → trim (w +:+ s +:+ v) = s.
Proof.
  intros Hw Hv (Hne & Hl & Hr). unfold trim. rewrite trim_start_blank by done.
  destruct s as [|c s]; [done|]. change (String c s +:+ v) with (String c (s +:+ v)).
  rewrite trim_start_tight by (by apply (Hl c s)). change (String c (s +:+ v)) with (String c s +:+ v).
  unfold trim_end. rewrite str_rev_app, trim_start_blank by (by apply blank_rev).
  destruct (str_snoc_case (String c s)) as [?|(r & d & Hrd)]; [done|]. rewrite Hrd, str_rev_app.
  change (str_rev (String d "") +:+ str_rev r) with (String d (str_rev r)).
  rewrite trim_start_tight by (by apply (Hr r d)). change (String d (str_rev r)) with (str_rev (String d "") +:+ str_rev r).
  rewrite <-str_rev_app, str_rev_involutive. done.
Qed.

(** A line that does not end with a backslash and a space. *)
Lemma line_text_around (w s v : string) : blank w → blank v → tight s → ends_with "\ " (w +:+ s +:+ v) = false →
  line_text (w +:+ s +:+ v) = s.
Proof. intros Hw Hv Hs He. unfold line_text. rewrite He. by apply trim_around. Qed.

(** ** C28 *)
(** A pattern [b] as written: nothing special at its start (so it is no comment, negation or escape),
    no doubled slashes, more than slashes. *)
Definition pattern_text (b : string) : Prop :=
  b ≠ "" ∧ contains "//" b = false ∧ ¬ only_slashes b ∧
  starts_with "#" b = false ∧ starts_with "!" b = false ∧ starts_with "\!" b = false.
Definition wildcard (b : string) : bool := contains "*" b || contains "?" b.

Lemma starts_with_bang (b : string) : starts_with "\!" (String "!" b) = false.
Proof. reflexivity. Qed.
Lemma contains_cons_ne (c d : ascii) (s : string) : c ≠ d → contains (String c "") (String d s) = contains (String c "") s.
Proof.
  intros H. change (contains (String c "") (String d s)) with (starts_with (String c "") (String d s) || contains (String c "") s).
  cbn [starts_with]. destruct (Ascii.eqb_spec c d); [done|]. done.
Qed.

(** The three forms of a line: [b], [!b] and [\!b], each with white space around it. *)
Theorem C28_line_means_partial (w v b : string) : blank w → blank v → pattern_text b → tight b →
  (ends_with "\ " (w +:+ b +:+ v) = false →
     parse_line (w +:+ b +:+ v) = C28_expected false (wildcard b) b) ∧
  (ends_with "\ " (w +:+ ("!" +:+ b) +:+ v) = false →
     parse_line (w +:+ ("!" +:+ b) +:+ v) = C28_expected true (wildcard b) b) ∧
  (contains "//" ("!" +:+ b) = false → ends_with "\ " (w +:+ ("\!" +:+ b) +:+ v) = false →
     parse_line (w +:+ ("\!" +:+ b) +:+ v) = C28_expected false (wildcard b) ("!" +:+ b)).
Proof.
  intros Hw Hv (Hb & Hd & Hs & Hh & Hn & He) (_ & Hl & Hr).
  assert (Htight : ∀ c t, b = b → white c = false → (t = "" ∨ t = "!") → tight (String c (t +:+ b))).
  { intros c t _ Hc Ht. split; [done|]. split.
    - intros c' r [= <- <-]. done.
    - intros r d E. destruct (str_snoc_case b) as [?|(b0 & e & Hbe)]; [done|].
      apply (Hr b0). rewrite Hbe. f_equal. apply (f_equal str_rev) in E. rewrite Hbe in E.
      change (String c (t +:+ (b0 +:+ String e ""))) with (String c "" +:+ (t +:+ (b0 +:+ String e ""))) in E.
      rewrite !str_rev_app in E. cbn in E. by injection E as -> _. }
  split; [|split].
  - intros Hnd. assert (tight b) as Ht by done.
    pose proof (C28_patterns_partial (w +:+ b +:+ v)) as H. cbv zeta in H.
    rewrite (line_text_around w b v Hw Hv Ht Hnd) in H.
    unfold line_body, line_negate in H. rewrite Hn, He in H. apply H; done.
  - intros Hnd. assert (tight ("!" +:+ b)) as Ht by (apply (Htight "!"%char ""); [done|done|by left]).
    pose proof (C28_patterns_partial (w +:+ ("!" +:+ b) +:+ v)) as H. cbv zeta in H.
    rewrite (line_text_around w _ v Hw Hv Ht Hnd) in H.
    change ("!" +:+ b) with (String "!" b) in H. unfold line_body, line_negate in H.
    rewrite starts_with_bang in H. change (starts_with "!" (String "!" b)) with true in H. cbn [tail_str] in H.
    rewrite !contains_cons_ne in H by done. apply H; done.
  - intros Hd' Hnd. assert (tight ("\!" +:+ b)) as Ht by (apply (Htight "\"%char "!"); [done|done|by right]).
    pose proof (C28_patterns_partial (w +:+ ("\!" +:+ b) +:+ v)) as H. cbv zeta in H.
    rewrite (line_text_around w _ v Hw Hv Ht Hnd) in H.
    change ("\!" +:+ b) with (String "\" (String "!" b)) in H. change ("!" +:+ b) with (String "!" b) in *.
    unfold line_body, line_negate in H.
    change (starts_with "\!" (String "\" (String "!" b))) with true in H. cbn [tail_str] in H.
    rewrite !contains_cons_ne in H by done. apply H; [done|done|done|done|].
    intros Ho. specialize (Ho "!"%char). cbn in Ho. by discriminate (Ho (or_introl eq_refl)).
Qed.
Print Assumptions C28_line_means_partial.

(** Blank lines, and comments with white space around them, mean nothing. *)
Theorem C28_nothing (w b v : string) : blank w → blank v →
  parse_line w = [] ∧ (tight ("#" +:+ b) → ends_with "\ " (w +:+ ("#" +:+ b) +:+ v) = false → parse_line (w +:+ ("#" +:+ b) +:+ v) = []).
Proof.
  intros Hw Hv. split.
  - destruct (C28_line_shape w) as [H _]. apply H. left. unfold line_text.
    assert (trim w = "") as Ht.
    { unfold trim. rewrite <-(str_app_nil_r w), trim_start_blank by done. done. }
    rewrite Ht. destruct (ends_with "\ " w) eqn:E; [|done]. exfalso. apply ends_with_spec in E as [t ->].
    specialize (Hw "\"%char). rewrite to_bytes_app in Hw.
    discriminate Hw. apply elem_of_app. right. left.
  - intros Ht He. destruct (C28_line_shape (w +:+ ("#" +:+ b) +:+ v)) as [H _]. apply H. right.
    rewrite line_text_around by done. done.
Qed.
Print Assumptions C28_nothing.
Example C28_means_nonvacuous :
  blank "  " ∧ pattern_text "src/*.o" ∧ tight "src/*.o" ∧ ends_with "\ " ("  " +:+ ("!" +:+ "src/*.o") +:+ " ") = false ∧
  C28_expected true (wildcard "src/*.o") "src/*.o" = [IP true "src/*.o"] ∧
  pattern_text "build" ∧ tight "build" ∧ C28_expected false (wildcard "build") ("!" +:+ "build") = [IP false "**/!build/**"; IP false "**/!build"].
Proof.
  assert (∀ s, s ≠ "" → forallb (λ c, negb (white c)) (to_bytes s) = true → tight s) as Ht.
  { intros s Hs Hf. rewrite forallb_forall in Hf. split; [done|]. split.
    - intros c r ->. apply negb_true_iff, Hf. cbn. by left.
    - intros r c ->. apply negb_true_iff, Hf. rewrite to_bytes_app. apply in_or_app. right. cbn. by left. }
  assert (∀ s c, In c (to_bytes s) → c ≠ "/"%char → ¬ only_slashes s) as Hos.
  { intros s c Hc Hne Ho. apply Hne. by apply Ho. }
  split; [intros c Hc; cbn in Hc; rewrite !elem_of_cons, elem_of_nil in Hc; destruct Hc as [-> |[-> |[]]]; done|].
  split; [repeat split; try done; apply (Hos _ "s"%char); [cbn; tauto|done]|].
  split; [by apply Ht|]. split; [done|]. split; [done|].
  split; [repeat split; try done; apply (Hos _ "b"%char); [cbn; tauto|done]|].
  split; [by apply Ht|done].
Qed.

(** ** C29: which files the rules come from, and in which order *)
(** The text of the ignore file [name] of a directory: the staged version counts if it can be read as
    text, else the one of the host. *)
Inductive ignore_text (f : fs) (up lo : path) (name : string) : option string → Prop :=
  | text_staged (c : string) : read_to_string f (up ++ [name]) = Some c → ignore_text f up lo name (Some c)
  | text_host (c : string) : read_to_string f (up ++ [name]) = None → read_to_string f (lo ++ [name]) = Some c →
      ignore_text f up lo name (Some c)
  | text_none : read_to_string f (up ++ [name]) = None → read_to_string f (lo ++ [name]) = None →
      ignore_text f up lo name None.
Definition rules_of (t : option string) : list ignore_pattern :=
  match t with Some c => mjoin (parse_line <$> lines c) | None => [] end.
(** The rules that concern the path [todo] below [up]/[lo]: from the outermost directory to the innermost,
    in each those of .gitignore before those of .ignore, each with the path relative to its directory. *)
Inductive all_rules (f : fs) : path → path → list string → list (ignore_pattern * string) → Prop :=
  | rules_done (up lo : path) : all_rules f up lo [] []
  | rules_dir (up lo : path) (x : string) (rest : list string) (git ign : option string) (rs : list (ignore_pattern * string)) :
      ignore_text f (up ++ [x]) (lo ++ [x]) ".gitignore" git → ignore_text f (up ++ [x]) (lo ++ [x]) ".ignore" ign →
      all_rules f (up ++ [x]) (lo ++ [x]) rest rs →
      all_rules f up lo (x :: rest) (((λ r, (r, join_comps rest)) <$> (rules_of git ++ rules_of ign)) ++ rs).

Lemma ignore_text_file (f : fs) (up lo : path) (name : string) (t : option string) :
  ignore_text f up lo name t → resolve_ignore_file f up lo name = rules_of t.
Proof. unfold resolve_ignore_file. intros [c -> | c -> -> | -> ->]; done. Qed.
Lemma all_rules_from (f : fs) (up lo : path) (sub : list string) (rs : list (ignore_pattern * string)) :
  all_rules f up lo sub rs → rules_from f up lo sub = rs.
Proof.
  intros H. induction H as [|up lo x rest git ign rs Hg Hi _ IH]; [done|]. cbn [rules_from].
  unfold resolve_ignores. by rewrite (ignore_text_file _ _ _ _ _ Hg), (ignore_text_file _ _ _ _ _ Hi), IH.
Qed.
Lemma all_rules_exist (f : fs) (sub : list string) : ∀ up lo : path, ∃ rs, all_rules f up lo sub rs.
Proof.
  assert (∀ up lo name, ∃ t, ignore_text f up lo name t) as Ht.
  { intros up lo name. destruct (read_to_string f (up ++ [name])) as [c|] eqn:E1; [exists (Some c); by constructor|].
    destruct (read_to_string f (lo ++ [name])) as [c|] eqn:E2; [exists (Some c); by constructor|]. exists None. by constructor. }
  induction sub as [|x sub IH]; intros up lo; [eexists; constructor|].
  destruct (IH (up ++ [x]) (lo ++ [x])) as [rs Hrs]. destruct (Ht (up ++ [x]) (lo ++ [x]) ".gitignore") as [g Hg].
  destruct (Ht (up ++ [x]) (lo ++ [x]) ".ignore") as [i Hi]. eexists. by constructor.
Qed.

(** The verdict on [base ++ sub] is that of the last rule that matches. *)
Theorem C29_rules_in_order (glob : string → string → bool) (f : fs) (ub : path) (enc : string) (base sub : path) :
  utf8_valid (path_str (base ++ sub)) = true →
  ∃ b c rs, is_ignored glob f ub enc base sub ∅ = (Ok b, c) ∧ all_rules f (ub ++ [enc]) base sub rs ∧
    (b = true ↔
       (∃ pat, pat ∈ BUILT_IN ∧ glob pat (path_str (base ++ sub)) = true) ∨
       (∃ l1 ip rel l2, rs = l1 ++ (ip, rel) :: l2 ∧ glob (ip_pattern ip) rel = true ∧ ip_negate ip = false ∧
          ∀ ip' rel', (ip', rel') ∈ l2 → glob (ip_pattern ip') rel' = false)).
Proof.
  intros Hu. destruct (C29_last_match_wins glob f ub enc base sub Hu) as (b & c & E & Hb).
  destruct (all_rules_exist f sub (ub ++ [enc]) base) as [rs Hrs]. exists b, c, rs.
  split; [exact E|]. split; [exact Hrs|]. by rewrite (all_rules_from _ _ _ _ _ Hrs) in Hb.
Qed.
Print Assumptions C29_rules_in_order.
Example C29_rules_nonvacuous : ∃ rs, all_rules ign_fs (demo_ub ++ ["F4"]) [] ["p"; "keep.o"] rs ∧ length rs = 3.
Proof.
  destruct (all_rules_exist ign_fs ["p"; "keep.o"] (demo_ub ++ ["F4"]) []) as [rs Hrs]. exists rs. split; [exact Hrs|].
  rewrite <-(all_rules_from _ _ _ _ _ Hrs). vm_compute. reflexivity.
Qed.

(** ** C80: lines naming a file or directory mean what the gitignore documentation says *)
(** A name without wildcards or other special characters. *)
Definition plain_name (a : string) : Prop :=
  a ≠ "" ∧ a ≠ "." ∧ a ≠ ".." ∧ ∀ c, c ∈ to_bytes a → c ∉ to_bytes "*?[]{}\!#/," ∧ white c = false.
(** What is asked of the glob library on the patterns made of such names: [s] is a path below the
    directory of the ignore file. *)
Definition glob_ok (glob : string → string → bool) : Prop :=
  ∀ a r, plain_name a → Forall comp_ok r →
    (glob ("**/" +:+ a) (join_comps r) = true ↔ last r = Some a) ∧
    (glob a (join_comps r) = true ↔ r = [a]) ∧
    ((∃ r1 x r2, r = r1 ++ a :: x :: r2) → glob ("**/" +:+ a +:+ "/**") (join_comps r) = true) ∧
    (glob ("**/" +:+ a +:+ "/**") (join_comps r) = true → a ∈ r) ∧
    ((∃ x r2, r = a :: x :: r2) → glob (a +:+ "/**") (join_comps r) = true) ∧
    (glob (a +:+ "/**") (join_comps r) = true → head r = Some a).

(** The only ignore file is [d]/.gitignore, and it consists of [line]. *)
Definition only_line (f : fs) (up lo d : path) (line : string) : Prop :=
  ∀ q, Forall comp_ok q → ignore_text f (up ++ q) (lo ++ q) ".gitignore" (if decide (q = d) then Some line else None) ∧
       ignore_text f (up ++ q) (lo ++ q) ".ignore" None.
Definition ignored_by_user (glob : string → string → bool) (f : fs) (ub : path) (enc : string) (base sub : path) : Prop :=
  ∃ c, is_ignored glob f ub enc base sub ∅ = (Ok true, c) ∧ ¬ ∃ pat, pat ∈ BUILT_IN ∧ glob pat (path_str (base ++ sub)) = true.

(** gitignore(5): without a separator at the beginning or in the middle a pattern may match at any level
    below its file; with one, it is relative to the directory of the file; a pattern for a directory covers
    what is in it. *)
Definition means (line : string) (r : list string) : Prop := ∃ a, plain_name a ∧
  (line = a ∧ a ∈ r ∨ line = "/" +:+ a ∧ head r = Some a ∨
   line = a +:+ "/" ∧ (∃ r1 x r2, r = r1 ++ a :: x :: r2) ∨ line = "/" +:+ a +:+ "/" ∧ (∃ x r2, r = a :: x :: r2)).
Definition C80_full : Prop :=
  ∀ (glob : string → string → bool) (f : fs) (ub : path) (enc : string) (base d r : path) (line : string),
    glob_ok glob → Forall comp_ok (d ++ r) → utf8_valid (path_str (base ++ d ++ r)) = true →
    only_line f (ub ++ [enc]) base d line → means line r →
    ∃ c, is_ignored glob f ub enc base (d ++ r) ∅ = (Ok true, c).

(** A reference implementation of the library on these patterns. *)
Definition ref_glob (p s : string) : bool :=
  let r := split_on "/" s in
  let any := starts_with "**/" p in
  let body := if any then tail_str (tail_str (tail_str p)) else p in
  match split_on "/" body with
  | [a] => if any then bool_decide (last r = Some a) else bool_decide (r = [a])
  | [a; b] => String.eqb b "**" &&
      (if any then existsb (String.eqb a) (removelast r)
       else bool_decide (head r = Some a) && negb (bool_decide (r = [a])))
  | _ => false
  end.
Lemma plain_noslash (a : string) : plain_name a → contains "/" a = false.
Proof.
  intros (_ & _ & _ & H). apply Bool.not_true_iff_false. rewrite contains_spec. intros (x & y & ->).
  destruct (H "/"%char) as [Hn _]; [rewrite to_bytes_app; apply elem_of_app; right; left|].
  apply Hn. apply elem_of_list_In. cbn. tauto.
Qed.
Lemma plain_first (a : string) : plain_name a → ∃ c s, a = String c s ∧ c ∉ to_bytes "*?[]{}\!#/," ∧ white c = false.
Proof.
  intros (Hne & _ & _ & H). destruct a as [|c s]; [done|]. exists c, s. split; [done|]. apply H. left.
Qed.
Lemma plain_no_char (a : string) (c : ascii) : plain_name a → c ∈ to_bytes "*?[]{}\!#/," → contains (String c "") a = false.
Proof.
  intros (_ & _ & _ & H) Hc. apply Bool.not_true_iff_false. rewrite contains_spec. intros (x & y & ->).
  destruct (H c) as [Hn _]; [rewrite to_bytes_app; apply elem_of_app; right; left|]. done.
Qed.
Lemma plain_starts (a t : string) (c : ascii) : plain_name a → c ∈ to_bytes "*?[]{}\!#/," → ∀ k, starts_with (String c k) (a +:+ t) = false.
Proof.
  intros Ha Hc k. destruct (plain_first a Ha) as (d & s & -> & Hd & _).
  change (String d s +:+ t) with (String d (s +:+ t)). cbn [starts_with].
  destruct (Ascii.eqb_spec c d); [by subst|done].
Qed.
Lemma split_on_join' (r : path) : Forall comp_ok r → split_on "/" (join_comps r) = match r with [] => [""] | _ => r end.
Proof. intros H. destruct r as [|x r]; [done|]. by apply split_on_join. Qed.

Lemma ref_glob_ok : glob_ok ref_glob.
Proof.
  intros a r Ha Hr. pose proof (plain_noslash a Ha) as Hns.
  assert (split_on "/" (a +:+ "/**") = [a; "**"]) as Hs2 by (change (a +:+ "/**") with (a +:+ "/" +:+ "**"); by rewrite split_on_slash).
  assert (a ≠ "") as Hne by (by destruct Ha).
  unfold ref_glob. rewrite split_on_join' by done.
  assert (starts_with "**/" a = false) as Hst1 by (rewrite <-(str_app_nil_r a); apply plain_starts; [done|left]).
  assert (starts_with "**/" (a +:+ "/**") = false) as Hst2 by (apply plain_starts; [done|left]).
  change ("**/" +:+ a) with (String "*" (String "*" (String "/" a))).
  change ("**/" +:+ a +:+ "/**") with (String "*" (String "*" (String "/" (a +:+ "/**")))).
  assert (∀ t, starts_with "**/" (String "*" (String "*" (String "/" t))) = true) as Hst3 by (intros t; by destruct t).
  rewrite !Hst1, !Hst2, !Hst3. cbn [tail_str]. rewrite !Hs2, !split_on_noslash by done. rewrite String.eqb_refl. cbn [andb].
  set (r' := match r with [] => [""] | _ => r end).
  assert (∀ x : string, x ≠ "" → (x ∈ r' ↔ x ∈ r)) as Hin.
  { intros x Hx. subst r'. destruct r; [|done]. rewrite elem_of_list_singleton, elem_of_nil. done. }
  split; [|split; [|split; [|split; [|split]]]].
  - rewrite bool_decide_eq_true. subst r'. destruct r; [|done]. cbn. split; [congruence|done].
  - rewrite bool_decide_eq_true. subst r'. destruct r; [|done]. split; [congruence|done].
  - intros (r1 & x & r2 & Hr12). apply existsb_exists. exists a. split; [|apply String.eqb_refl].
    apply elem_of_list_In. subst r'. rewrite Hr12. destruct (r1 ++ a :: x :: r2) eqn:E; [by destruct r1|]. rewrite <-E.
    rewrite removelast_app by done. apply elem_of_app. right. cbn [removelast]. left.
  - rewrite existsb_exists. intros (x & Hx & Heq). apply String.eqb_eq in Heq as <-. apply Hin; [done|].
    apply elem_of_list_In in Hx. clear -Hx. induction r' as [|y l IH]; [done|]. destruct l as [|z l]; [by apply elem_of_nil in Hx|].
    apply elem_of_cons in Hx as [-> |Hx]; [left|right; by apply IH].
  - intros (x & r2 & ->). subst r'. rewrite andb_true_iff, negb_true_iff, bool_decide_eq_true, bool_decide_eq_false. done.
  - rewrite andb_true_iff, bool_decide_eq_true. intros [H _]. subst r'. destruct r; [|done]. cbn in H. congruence.
Qed.

(** All rules of the path [d ++ r] are those of the line. *)
Lemma no_rules (f : fs) (r : path) : ∀ up lo : path, Forall comp_ok r →
  (∀ q, Forall comp_ok q → q ≠ [] → ignore_text f (up ++ q) (lo ++ q) ".gitignore" None ∧ ignore_text f (up ++ q) (lo ++ q) ".ignore" None) →
  rules_from f up lo r = [].
Proof.
  induction r as [|x r IH]; intros up lo Hr H; [done|]. apply Forall_cons in Hr as [Hx Hr]. cbn [rules_from]. unfold resolve_ignores.
  destruct (H [x]) as [H1 H2]; [by constructor|done|].
  rewrite (ignore_text_file _ _ _ _ _ H1), (ignore_text_file _ _ _ _ _ H2). cbn [rules_of app fmap list_fmap].
  apply IH; [done|]. intros q Hq Hne. destruct (H (x :: q)) as [H3 H4]; [by constructor|done|]. rewrite <-!app_assoc. by split.
Qed.
Lemma only_line_rules (f : fs) (line : string) (d r : path) : ∀ up lo : path, Forall comp_ok (d ++ r) →
  only_line f up lo d line → d ≠ [] →
  rules_from f up lo (d ++ r) = (λ ip, (ip, join_comps r)) <$> rules_of (Some line).
Proof.
  induction d as [|x d IH]; intros up lo Hok Hl Hd; [done|]. cbn [app] in Hok. apply Forall_cons in Hok as [Hx Hok].
  cbn [app rules_from]. unfold resolve_ignores.
  destruct (Hl [x]) as [H1 H2]; [by constructor|]. rewrite (ignore_text_file _ _ _ _ _ H1), (ignore_text_file _ _ _ _ _ H2). rewrite app_nil_r.
  destruct d as [|y d].
  - rewrite decide_True by done. cbn [app]. rewrite no_rules, app_nil_r; [done|done|].
    intros q Hq Hne. destruct (Hl (x :: q)) as [H3 H4]; [by constructor|]. rewrite decide_False in H3 by (intros [= ?]; by apply Hne).
    rewrite <-!app_assoc. by split.
  - rewrite decide_False by done. cbn [rules_of fmap list_fmap]. rewrite app_nil_l. apply IH; [done| |done].
    intros q Hq. destruct (Hl (x :: q)) as [H3 H4]; [by constructor|]. rewrite <-!app_assoc. cbn [app]. split; [|exact H4].
    destruct (decide (q = y :: d)) as [-> |Hne]; [by rewrite decide_True in H3|]. rewrite decide_False in H3; [done|].
    intros [= ?]. by apply Hne.
Qed.

(** The verdict when no rule is a negation. *)
Lemma positive_verdict (glob : string → string → bool) (f : fs) (ub : path) (enc : string) (base sub : path) (rs : list (ignore_pattern * string)) :
  utf8_valid (path_str (base ++ sub)) = true → rules_from f (ub ++ [enc]) base sub = rs → (∀ r, r ∈ rs → ip_negate r.1 = false) →
  ∃ b c, is_ignored glob f ub enc base sub ∅ = (Ok b, c) ∧
    (b = true ↔ (∃ pat, pat ∈ BUILT_IN ∧ glob pat (path_str (base ++ sub)) = true) ∨ ∃ ip rel, (ip, rel) ∈ rs ∧ glob (ip_pattern ip) rel = true).
Proof.
  intros Hu Hrs Hneg. destruct (C29_last_match_wins glob f ub enc base sub Hu) as (b & c & E & Hb). exists b, c. split; [exact E|].
  rewrite Hb, Hrs. split.
  - intros [H|(l1 & ip & rel & l2 & -> & Hg & _)]; [by left|right]. exists ip, rel. split; [|done]. apply elem_of_app. right. left.
  - intros [H|(ip & rel & Hin & Hg)]; [by left|right]. clear Hb E Hrs. revert Hneg Hin.
    induction rs as [|[ip0 rel0] rs IH]; intros Hneg Hin; [by apply elem_of_nil in Hin|].
    destruct (existsb (λ r, glob (ip_pattern r.1) r.2) rs) eqn:Ex.
    + assert (∃ ip rel, (ip, rel) ∈ rs ∧ glob (ip_pattern ip) rel = true) as (ip1 & rel1 & Hin1 & Hg1).
      { apply existsb_exists in Ex as ([i1 r1] & H1 & H2). apply elem_of_list_In in H1. eauto. }
      clear IH. revert Hneg Hin1. clear -Hg1 glob.
      assert (∀ (l : list (ignore_pattern * string)), (∀ r, r ∈ l → ip_negate r.1 = false) → (ip1, rel1) ∈ l →
         ∃ l1 ip rel l2, l = l1 ++ (ip, rel) :: l2 ∧ glob (ip_pattern ip) rel = true ∧ ip_negate ip = false ∧
          (∀ ip' rel', (ip', rel') ∈ l2 → glob (ip_pattern ip') rel' = false)) as Hl.
      { intros l Hn Hi. assert (verdict glob l = true) as Hv.
        { clear -Hn Hi Hg1. induction l as [|z l IH] using rev_ind; [by apply elem_of_nil in Hi|]. rewrite verdict_snoc.
          destruct (fires glob z) eqn:Ef; [by rewrite Hn by (apply elem_of_app; right; left)|].
          apply elem_of_app in Hi as [Hi|Hi].
          - apply IH; [|done]. intros r Hr. apply Hn. apply elem_of_app. by left.
          - apply elem_of_list_singleton in Hi as <-. unfold fires in Ef. cbn in Ef. congruence. }
        apply verdict_spec in Hv as (l1 & [i r] & l2 & -> & H1 & H2 & H3). exists l1, i, r, l2. split; [done|]. split; [done|]. split; [done|].
        intros i' r' H. by apply (H3 (i', r')). }
      intros Hneg Hin. apply Hl; [done|]. by right.
    + assert (glob (ip_pattern ip0) rel0 = true) as Hg0.
      { apply elem_of_cons in Hin as [[= <- <-]|Hin]; [done|]. exfalso. rewrite <-Bool.not_true_iff_false in Ex. apply Ex.
        apply existsb_exists. exists (ip, rel). split; [by apply elem_of_list_In|done]. }
      exists [], ip0, rel0, rs. split; [done|]. split; [done|]. split; [by apply (Hneg (ip0, rel0)); left|].
      intros ip' rel' H. destruct (glob (ip_pattern ip') rel') eqn:E; [|done]. exfalso. rewrite <-Bool.not_true_iff_false in Ex. apply Ex.
      apply existsb_exists. exists (ip', rel'). split; [by apply elem_of_list_In|done].
Qed.

(** The patterns of the four forms of a line. *)
Lemma plain_tight (x a y : string) : plain_name a → x ∈ [""; "/"] → y ∈ [""; "/"] →
  pattern_text (x +:+ a +:+ y) ∧ tight (x +:+ a +:+ y) ∧ (∀ c, c ∈ to_bytes (x +:+ a +:+ y) → white c = false) ∧
  wildcard (x +:+ a +:+ y) = false.
Proof.
  intros Ha Hx Hy.
  assert (∀ c, c ∈ to_bytes (x +:+ a +:+ y) → (c = "/"%char ∨ c ∈ to_bytes a)) as Hc.
  { intros c. rewrite !to_bytes_app, !elem_of_app. rewrite !elem_of_cons, elem_of_nil in Hx, Hy.
    intros [H|[H|H]]; [|by right|].
    - destruct Hx as [-> |[-> |[]]]; cbn in H; [by apply elem_of_nil in H|]. apply elem_of_list_singleton in H. by left.
    - destruct Hy as [-> |[-> |[]]]; cbn in H; [by apply elem_of_nil in H|]. apply elem_of_list_singleton in H. by left. }
  assert (∀ c, c ∈ to_bytes (x +:+ a +:+ y) → white c = false) as Hw.
  { intros c H. apply Hc in H as [-> |H]; [done|]. by apply Ha. }
  assert (∀ c, c ∈ to_bytes "*?[]{}\!#," → ∀ k, contains (String c k) (x +:+ a +:+ y) = false) as Hspec.
  { intros c H k. apply Bool.not_true_iff_false. rewrite contains_spec. intros (u & v & E).
    assert (c ∈ to_bytes (x +:+ a +:+ y)) as Hin.
    { rewrite E, to_bytes_app. apply elem_of_app. right. left. }
    apply Hc in Hin as [-> |Hin]; [by apply elem_of_list_In in H; cbn in H; repeat destruct H as [H|H]|].
    apply Ha in Hin as [Hn _]. apply Hn. clear -H. rewrite <-(elem_of_list_In) || idtac.
    apply elem_of_list_In in H. apply elem_of_list_In. cbn in *. tauto. }
  assert (∀ c k, c ∈ to_bytes "*?[]{}\!#," → starts_with (String c k) (x +:+ a +:+ y) = false) as Hst.
  { intros c k H. apply Bool.not_true_iff_false. intros E. apply starts_with_spec in E as [t E].
    specialize (Hspec c H k). rewrite <-Bool.not_true_iff_false, contains_spec in Hspec. apply Hspec. exists "", t. by rewrite E. }
  destruct (plain_first a Ha) as (c0 & s0 & Ha0 & Hc0 & _).
  assert (x +:+ a +:+ y ≠ "") as Hne.
  { rewrite !elem_of_cons, elem_of_nil in Hx. subst a. destruct Hx as [-> |[-> |[]]]; done. }
  split; [|split; [|split]].
  - split; [done|]. split.
    + apply nodd_spec. intros u v E. apply (f_equal to_bytes) in E. rewrite !to_bytes_app in E.
      assert ("/"%char ∉ to_bytes a) as Hna by (intros H; apply Ha in H as [H _]; apply H, elem_of_list_In; cbn; tauto).
      assert (a ≠ "") as Hane by (by destruct Ha).
      cbn in E. rewrite !elem_of_cons, elem_of_nil in Hx, Hy.
      assert (∀ (l : list ascii) p q, "/"%char ∉ l → l ≠ [] → l ++ to_bytes y ≠ p ++ "/"%char :: "/"%char :: q) as Hno.
      { clear -Hy. intros l. induction l as [|z l IH]; intros p q H1 H2 E; [done|]. apply not_elem_of_cons in H1 as [H1 H3].
        destruct p as [|p0 p]; [by injection E as -> _|]. injection E as -> E. destruct l as [|z' l].
        - cbn in E. destruct Hy as [-> |[-> |[]]]; cbn in E; [by destruct p|]. destruct p as [|? [|? ?]]; done.
        - by apply (IH p q). }
      assert (to_bytes a ≠ []) as Hta by (subst a; done).
      destruct Hx as [-> |[-> |[]]]; cbn in E; [by apply (Hno _ _ _ Hna Hta E)|].
      destruct (to_bytes u) as [|u0 u'] eqn:Eu.
      * cbn in E. injection E as E. destruct (to_bytes a) as [|z l] eqn:El; [done|]. cbn in E. injection E as -> _. apply Hna. left.
      * cbn in E. injection E as _ E. by apply (Hno _ _ _ Hna Hta E).
    + split.
      * intros Ho. apply Hc0. rewrite (Ho c0); [apply elem_of_list_In; cbn; tauto|].
        apply elem_of_list_In. rewrite !to_bytes_app, Ha0. apply elem_of_app. right. apply elem_of_app. left. left.
      * repeat split; apply Hst; apply elem_of_list_In; cbn; tauto.
  - split; [done|]. split.
    + intros c r E. apply Hw. rewrite E. left.
    + intros r c E. apply Hw. rewrite E, to_bytes_app. apply elem_of_app. right. left.
  - exact Hw.
  - unfold wildcard. rewrite !Hspec by (apply elem_of_list_In; cbn; tauto). done.
Qed.
Lemma lines_single (s : string) : s ≠ "" → (∀ c, c ∈ to_bytes s → white c = false) → lines s = [s].
Proof.
  intros Hne Hw. unfold lines.
  assert (split_on "010" s = [s]) as ->.
  { clear Hne. induction s as [|c s IH]; [done|]. cbn [split_on]. rewrite IH by (intros d Hd; apply Hw; by right).
    destruct (Ascii.eqb_spec c "010") as [-> |]; [|done]. specialize (Hw "010"%char ltac:(left)). discriminate Hw. }
  cbn. apply String.eqb_neq in Hne. by rewrite Hne.
Qed.
Lemma plain_rules (x a y : string) : plain_name a → x ∈ [""; "/"] → y ∈ [""; "/"] →
  rules_of (Some (x +:+ a +:+ y)) = C28_expected false false (x +:+ a +:+ y).
Proof.
  intros Ha Hx Hy. destruct (plain_tight x a y Ha Hx Hy) as (Hp & Ht & Hw & Hwild).
  cbn [rules_of]. rewrite lines_single by (done || by destruct Hp). cbn [fmap list_fmap mjoin list_join].
  rewrite app_nil_r.
  destruct (C28_line_means_partial "" "" (x +:+ a +:+ y)) as [H _]; [intros c Hc; by apply elem_of_nil in Hc..|done|done|].
  rewrite str_app_nil_r in H. change ("" +:+ (x +:+ a +:+ y)) with (x +:+ a +:+ y) in H. rewrite Hwild in H. apply H.
  apply Bool.not_true_iff_false. rewrite ends_with_spec. intros [t E]. specialize (Hw " "%char). rewrite E in Hw.
  discriminate Hw. rewrite to_bytes_app. apply elem_of_app. right. right. left.
Qed.
Lemma ends_no_slash (a : string) : plain_name a → ends_with "/" a = false.
Proof.
  intros Ha. apply Bool.not_true_iff_false. rewrite ends_with_spec. intros [t E]. pose proof (plain_noslash a Ha) as Hn.
  rewrite <-Bool.not_true_iff_false, contains_spec in Hn. apply Hn. exists t, "". by rewrite E.
Qed.
Lemma contains_slash (a b : string) : contains "/" (a +:+ "/" +:+ b) = true.
Proof. apply contains_spec. by exists a, b. Qed.
Lemma glob_for_plain (c : ascii) (s : string) : c ≠ "/"%char → glob_for (String c s) =
  if contains "/" (String c s) || starts_with "**" (String c s) then String c s else "**/" +:+ String c s.
Proof.
  intros H. rewrite <-glob_for_anchor. unfold anchor.
  assert (starts_with "/" (String c s) = false) as ->.
  { cbn [starts_with]. destruct (Ascii.eqb_spec "/" c); [congruence|done]. }
  destruct (contains "/" (String c s)), (starts_with "**" (String c s)); done.
Qed.
Lemma plain_expected (a : string) : plain_name a →
  C28_expected false false a = [IP false ("**/" +:+ a +:+ "/**"); IP false ("**/" +:+ a)] ∧
  C28_expected false false ("/" +:+ a) = [IP false (a +:+ "/**"); IP false a] ∧
  C28_expected false false (a +:+ "/") = [IP false (a +:+ "/**")] ∧
  C28_expected false false ("/" +:+ a +:+ "/") = [IP false (a +:+ "/**")].
Proof.
  intros Ha. pose proof (ends_no_slash a Ha) as He. unfold C28_expected.
  assert (a ≠ "") as Hne by (by destruct Ha).
  assert (∀ t, ends_with "/" (t +:+ "/") = true) as Hes by (intros t; apply ends_with_spec; by exists t).
  rewrite (ends_with_app_slash "/" a Hne), He. rewrite !Hes.
  destruct (plain_first a Ha) as (c & s & -> & Hc & _).
  assert (c ≠ "/"%char) as Hcs by (intros ->; apply Hc, elem_of_list_In; cbn; tauto).
  assert (starts_with "**" (String c s) = false) as Hstar.
  { rewrite <-(str_app_nil_r (String c s)). apply plain_starts; [done|left]. }
  split; [|split; [|split]].
  - rewrite (glob_for_plain c s Hcs), (plain_noslash _ Ha), Hstar. cbn [orb]. by rewrite <-str_app_assoc.
  - done.
  - change (String c s +:+ "/") with (String c (s +:+ "/")). rewrite (glob_for_plain c _ Hcs).
    change (String c (s +:+ "/")) with (String c s +:+ "/" +:+ ""). rewrite contains_slash. cbn [orb].
    rewrite str_app_nil_r, <-str_app_assoc. done.
  - rewrite (str_app_assoc "/" (String c s) "/"), Hes.
    change (("/" +:+ String c s) +:+ "/") with (String "/" (String c s +:+ "/")). cbn [glob_for].
    by rewrite <-str_app_assoc.
Qed.

(** What the four forms of a line do, for the path [r] below the directory [d] of the ignore file ([d] is
    not the mount point itself).  [name] covers everything called so, at any depth, and what is below;
    [/name] the same directly in [d]; [/name/] what is in the directory called so in [d].  [name/] means the
    same as [/name/], and not what is documented. *)
Theorem C80_names_partial (glob : string → string → bool) (f : fs) (ub : path) (enc : string) (base d r : path) (a line : string) :
  glob_ok glob → Forall comp_ok (d ++ r) → utf8_valid (path_str (base ++ d ++ r)) = true → d ≠ [] → plain_name a →
  only_line f (ub ++ [enc]) base d line →
  ∃ b c, is_ignored glob f ub enc base (d ++ r) ∅ = (Ok b, c) ∧
  let built_in := ∃ pat, pat ∈ BUILT_IN ∧ glob pat (path_str (base ++ d ++ r)) = true in
  (line = a → (b = true ↔ built_in ∨ a ∈ r)) ∧
  (line = "/" +:+ a → (b = true ↔ built_in ∨ head r = Some a)) ∧
  (line = "/" +:+ a +:+ "/" → r ≠ [a] → (b = true ↔ built_in ∨ head r = Some a)) ∧
  (line = a +:+ "/" → r ≠ [a] → (b = true ↔ built_in ∨ head r = Some a)).
Proof.
  intros Hg Hdr Hu Hd Ha Hl. assert (Forall comp_ok r) as Hr by (by apply Forall_app in Hdr as [_ ?]). destruct (plain_expected a Ha) as (E1 & E2 & E3 & E4).
  destruct (Hg a r Ha Hr) as (G1 & G2 & G3 & G4 & G5 & G6).
  assert (∀ x y, x ∈ [""; "/"] → y ∈ [""; "/"] → line = x +:+ a +:+ y →
    rules_from f (ub ++ [enc]) base (d ++ r) = (λ ip, (ip, join_comps r)) <$> C28_expected false false line) as Hrules.
  { intros x y Hx Hy ->. rewrite (only_line_rules f (x +:+ a +:+ y) d r _ _ Hdr Hl Hd). f_equal. by apply plain_rules. }
  assert (∀ ps, rules_from f (ub ++ [enc]) base (d ++ r) = (λ ip, (ip, join_comps r)) <$> ((λ p, IP false p) <$> ps) →
    ∃ b c, is_ignored glob f ub enc base (d ++ r) ∅ = (Ok b, c) ∧
     (b = true ↔ (∃ pat, pat ∈ BUILT_IN ∧ glob pat (path_str (base ++ d ++ r)) = true) ∨ ∃ p, p ∈ ps ∧ glob p (join_comps r) = true)) as Hv.
  { intros ps Hps. destruct (positive_verdict glob f ub enc base (d ++ r) _ Hu Hps) as (b & c & E & Hb).
    - intros z Hz. apply elem_of_list_fmap in Hz as (ip & -> & Hz). apply elem_of_list_fmap in Hz as (p & -> & _). done.
    - exists b, c. split; [exact E|]. rewrite Hb. split; (intros [H|H]; [by left|right]).
      + destruct H as (ip & rel & Hin & Hgl). apply elem_of_list_fmap in Hin as (ip' & [= -> ->] & Hin).
        apply elem_of_list_fmap in Hin as (p & -> & Hp). by exists p.
      + destruct H as (p & Hp & Hgl). exists (IP false p), (join_comps r). split; [|done]. apply elem_of_list_fmap. eexists. split; [done|].
        apply elem_of_list_fmap. by exists p. }
  destruct (C29_last_match_wins glob f ub enc base (d ++ r) Hu) as (b & c & E & _). exists b, c. split; [exact E|].
  cbv zeta.
  assert (∀ ps, rules_from f (ub ++ [enc]) base (d ++ r) = (λ ip, (ip, join_comps r)) <$> ((λ p, IP false p) <$> ps) →
     (b = true ↔ (∃ pat, pat ∈ BUILT_IN ∧ glob pat (path_str (base ++ d ++ r)) = true) ∨ ∃ p, p ∈ ps ∧ glob p (join_comps r) = true)) as Hv'.
  { intros ps Hps. destruct (Hv ps Hps) as (b' & c' & E' & Hb'). rewrite E in E'. injection E' as -> _. exact Hb'. }
  clear Hv E c.
  split; [|split; [|split]].
  - intros Hline. rewrite (Hv' ["**/" +:+ a +:+ "/**"; "**/" +:+ a]).
    2: { rewrite (Hrules "" "" ltac:(left) ltac:(left)), Hline, E1 by (by rewrite str_app_nil_r). done. }
    split; (intros [H|H]; [by left|right]).
    + destruct H as (p & Hp & Hgl). rewrite !elem_of_cons, elem_of_nil in Hp. destruct Hp as [-> |[-> |[]]]; [by apply G4|].
      apply G1 in Hgl. by apply last_Some_elem_of.
    + apply elem_of_list_split in H as (r1 & r2 & ->). destruct r2 as [|x r2].
      * exists ("**/" +:+ a). split; [right; left|]. apply G1. by rewrite last_snoc.
      * exists ("**/" +:+ a +:+ "/**"). split; [left|]. apply G3. by exists r1, x, r2.
  - intros Hline. rewrite (Hv' [a +:+ "/**"; a]).
    2: { rewrite (Hrules "/" "" ltac:(right; left) ltac:(left)), Hline, E2 by (by rewrite str_app_nil_r). done. }
    split; (intros [H|H]; [by left|right]).
    + destruct H as (p & Hp & Hgl). rewrite !elem_of_cons, elem_of_nil in Hp. destruct Hp as [-> |[-> |[]]]; [by apply G6|].
      apply G2 in Hgl. by rewrite Hgl.
    + destruct r as [|x [|y r]]; [done| |]; injection H as ->.
      * exists a. split; [right; left|]. by apply G2.
      * exists (a +:+ "/**"). split; [left|]. apply G5. by exists y, r.
  - intros Hline Hne. rewrite (Hv' [a +:+ "/**"]).
    2: { rewrite (Hrules "/" "/" ltac:(right; left) ltac:(right; left)), Hline, E4 by done. done. }
    split; (intros [H|H]; [by left|right]).
    + destruct H as (p & Hp & Hgl). apply elem_of_list_singleton in Hp as ->. by apply G6.
    + destruct r as [|x [|y r]]; [done| |]; injection H as ->; [done|].
      exists (a +:+ "/**"). split; [left|]. apply G5. by exists y, r.
  - intros Hline Hne. rewrite (Hv' [a +:+ "/**"]).
    2: { rewrite (Hrules "" "/" ltac:(left) ltac:(right; left)), Hline, E3 by done. done. }
    split; (intros [H|H]; [by left|right]).
    + destruct H as (p & Hp & Hgl). apply elem_of_list_singleton in Hp as ->. by apply G6.
    + destruct r as [|x [|y r]]; [done| |]; injection H as ->; [done|].
      exists (a +:+ "/**"). split; [left|]. apply G5. by exists y, r.
Qed.
Print Assumptions C80_names_partial.

(** An ignore file in the mount point itself (the root of the file system) is never looked at. *)
Theorem C80_mount_root_refuted (glob : string → string → bool) (f : fs) (ub : path) (enc : string) (base r : path) (line : string) :
  Forall comp_ok r → utf8_valid (path_str (base ++ r)) = true → only_line f (ub ++ [enc]) base [] line →
  ∃ b c, is_ignored glob f ub enc base r ∅ = (Ok b, c) ∧
    (b = true ↔ ∃ pat, pat ∈ BUILT_IN ∧ glob pat (path_str (base ++ r)) = true).
Proof.
  intros Hr Hu Hl.
  assert (rules_from f (ub ++ [enc]) base r = []) as Hrs.
  { apply no_rules; [done|]. intros q Hq Hne. destruct (Hl q Hq) as [H1 H2]. by rewrite decide_False in H1. }
  destruct (positive_verdict glob f ub enc base r [] Hu Hrs) as (b & c & E & Hb); [intros z Hz; by apply elem_of_nil in Hz|].
  exists b, c. split; [exact E|]. rewrite Hb. split; [|by left]. intros [H|(ip & rel & H & _)]; [done|by apply elem_of_nil in H].
Qed.
Print Assumptions C80_mount_root_refuted.

(** A tree whose only ignore file is /p/.gitignore. *)
Definition line_fs (d : path) (line : string) : fs := list_to_map
  [ ([], dir0); (["p"], dir0); (d ++ [".gitignore"], file_ line);
    (["sbx"], dir0); (["sbx"; "up"], dir0); (["sbx"; "up"; "F4"], dir0); (["sbx"; "up"; "F4"; "p"], dir0);
    (["sbx"; "up"; "F4"; "p"; "sub"], dir0); (["sbx"; "up"; "F4"; "p"; "sub"; "build"], dir0);
    (["sbx"; "up"; "F4"; "p"; "sub"; "build"; "x"], file_ "2") ].
Lemma read_here (f : fs) (p : path) (c : string) : Forall comp_ok p →
  (∀ q n, f !! q = Some n → is_klink (n_kind n) = false) → read_to_string f p = Some c → is_Some (f !! p).
Proof.
  intros Hp Hl H. unfold read_to_string, read_file, rbind in H.
  destruct (stat f p) as [n|e] eqn:E; [|done]. unfold stat, lookup_f, rbind in E.
  destruct (walk_nolink max_links f true [] p) as [W|[e' W]].
  - intros q x r ->. apply Forall_app in Hp as [_ Hp]. apply Forall_cons in Hp as [Hx _]. split; [exact Hx|]. intros _ nd. apply Hl.
  - intros _ nd _. apply Hl.
  - rewrite W in E. cbn [app] in E. destruct (f !! p) as [m|]; [|discriminate E]. by exists m.
  - rewrite W in E. discriminate E.
Qed.
Definition build_fs (line : string) : fs := line_fs ["p"] line.
Lemma build_nolink (line : string) (q : path) (n : node) : build_fs line !! q = Some n → is_klink (n_kind n) = false.
Proof.
  intros H. apply elem_of_list_to_map_2 in H. rewrite !elem_of_cons, elem_of_nil in H.
  repeat destruct H as [[= -> ->]|H]; done.
Qed.
Lemma build_only (line : string) : utf8_valid line = true → only_line (build_fs line) (demo_ub ++ ["F4"]) [] ["p"] line.
Proof.
  intros Hu q Hq.
  assert (Hnone : ∀ (x : path) name, Forall comp_ok (x ++ [name]) → ((name = ".gitignore" ∧ x ≠ ["p"]) ∨ name = ".ignore") →
    read_to_string (build_fs line) (x ++ [name]) = None).
  { intros x name Hok Hn. destruct (read_to_string (build_fs line) (x ++ [name])) as [c|] eqn:E; [|reflexivity]. exfalso.
    destruct (read_here _ _ _ Hok (build_nolink line) E) as [n H]. clear E. apply elem_of_list_to_map_2 in H.
    rewrite !elem_of_cons, elem_of_nil in H.
    repeat destruct H as [H|H]; [..|done];
      injection H as H _; pose proof (f_equal last H) as Hl; rewrite ?last_snoc in Hl; cbn in Hl;
      (destruct Hn as [[-> Hx]| ->]; [|discriminate Hl]); try discriminate Hl.
    change ["p"; ".gitignore"] with (["p"] ++ [".gitignore"]) in H. apply app_inj_tail in H as [-> _]. by apply Hx. }
  assert (Forall comp_ok (demo_ub ++ ["F4"])) as Hup.
  { repeat constructor; try done. }
  assert (Hgit : comp_ok ".gitignore") by done. assert (Hign : comp_ok ".ignore") by done.
  assert (Hok1 : ∀ name, comp_ok name → Forall comp_ok (((demo_ub ++ ["F4"]) ++ q) ++ [name])).
  { intros name Hname. apply Forall_app. split; [by apply Forall_app|by constructor]. }
  assert (Hok2 : ∀ name, comp_ok name → Forall comp_ok (q ++ [name])).
  { intros name Hname. apply Forall_app. split; [done|by constructor]. }
  split.
  - destruct (decide (q = ["p"])) as [-> |Hne].
    + apply text_host.
      * apply Hnone; [by apply Hok1|]. left. split; [done|]. intros [=].
      * unfold read_to_string.
        assert (read_file (build_fs line) (([] ++ ["p"]) ++ [".gitignore"]) = Ok line) as -> by (vm_compute; reflexivity).
        by rewrite Hu.
    + apply text_none; (apply Hnone; [by (apply Hok1 || apply Hok2)|]); left; (split; [done|]); [intros [=]|exact Hne].
  - apply text_none; (apply Hnone; [by (apply Hok1 || apply Hok2)|]); by right.
Qed.
Lemma build_plain : plain_name "build".
Proof.
  repeat split; try done; cbn in H; rewrite !elem_of_cons, elem_of_nil in H; repeat destruct H as [-> |H]; try done.
  all: intros H'; apply elem_of_list_In in H'; cbn in H'; repeat destruct H' as [H'|H']; done.
Qed.

Theorem C80_refuted : ¬ C80_full.
Proof.
  intros H.
  destruct (H ref_glob (build_fs "build/") demo_ub "F4" [] ["p"] ["sub"; "build"; "x"] "build/" ref_glob_ok) as [c E].
  - repeat constructor; done.
  - reflexivity.
  - apply build_only. reflexivity.
  - exists "build". split; [exact build_plain|]. right. right. left. split; [done|]. by exists ["sub"], "x", [].
  - assert (fst (is_ignored ref_glob (build_fs "build/") demo_ub "F4" [] (["p"] ++ ["sub"; "build"; "x"]) ∅) = Ok false) as E2
      by (vm_compute; reflexivity).
    rewrite E in E2. discriminate E2.
Qed.
Print Assumptions C80_refuted.
(** The line [build] does ignore the same file, in the same tree. *)
Example C80_nonvacuous : glob_ok ref_glob ∧ only_line (build_fs "build") (demo_ub ++ ["F4"]) [] ["p"] "build" ∧ plain_name "build" ∧
  fst (is_ignored ref_glob (build_fs "build") demo_ub "F4" [] ["p"; "sub"; "build"; "x"] ∅) = Ok true ∧
  fst (is_ignored ref_glob (build_fs "build") demo_ub "F4" [] ["p"; "sub"] ∅) = Ok false.
Proof.
  split; [exact ref_glob_ok|]. split; [apply build_only; reflexivity|]. split; [exact build_plain|]. split; vm_compute; reflexivity.
Qed.
