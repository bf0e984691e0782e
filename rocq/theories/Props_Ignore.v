(** * Ignore rules and file names (C28-C31, C55). *)
From Verif Require Export Props_Accept IgnoreFacts.

(** ** C28: ignore file parsing *)

(** What an ignore line means, for a line whose text (after trimming, and without the "!" or "\!"
    prefix) is [b]: anchored at the file's directory if it starts with a slash, anywhere below if
    it contains none; a trailing slash means everything in the directory. *)
Definition glob_for (b : string) : string :=
  match b with
  | String "/"%char r => r
  | _ => if contains "/" b || starts_with "**" b then b else "**/" +:+ b
  end.
Definition only_slashes (b : string) : Prop := ∀ c, In c (to_bytes b) → c = "/"%char.

Lemma glob_for_anchor b : anchor b = glob_for b.
Proof.
  unfold anchor, glob_for. destruct b as [|c r]; [done|].
  destruct (Ascii.eqb_spec c "/") as [->|Hne]; [done|].
  assert (starts_with "/" (String c r) = false) as ->.
  { cbn [starts_with]. destruct (Ascii.eqb_spec "/" c); [congruence|done]. }
  transitivity (if contains "/" (String c r) || starts_with "**" (String c r) then String c r else "**/" +:+ String c r).
  - destruct (contains "/" (String c r)), (starts_with "**" (String c r)); done.
  - destruct c as [[] [] [] [] [] [] [] []]; try done.
Qed.
Lemma ends_with_app_slash (a b : string) : b ≠ "" → ends_with "/" (a +:+ b) = ends_with "/" b.
Proof.
  intros Hb. apply Bool.eq_iff_eq_true. rewrite !ends_with_spec. split.
  - intros [t E]. destruct (list_snoc_case (to_bytes b)) as [E0|(k & x & Ek)].
    { destruct Hb. by apply to_bytes_inj. }
    exists (of_bytes k). apply (f_equal to_bytes) in E. rewrite !to_bytes_app, Ek in E. simpl in E.
    rewrite app_assoc in E. apply app_inj_tail in E as [_ ->]. apply to_bytes_inj.
    by rewrite to_bytes_app, to_of_bytes, Ek.
  - intros [t ->]. exists (a +:+ t). by rewrite str_app_assoc.
Qed.
Lemma glob_for_slash b : b ≠ "" → ¬ only_slashes b → nodd b → ends_with "/" (glob_for b) = ends_with "/" b.
Proof.
  intros Hb Hs Hd. rewrite <-glob_for_anchor. unfold anchor. destruct b as [|c r]; [done|].
  destruct (starts_with "/" (String c r)) eqn:E.
  - cbn [tail_str]. cbn [starts_with] in E. destruct (Ascii.eqb_spec "/" c) as [<-|]; [|done].
    destruct r as [|d r]; [destruct Hs; intros x [<-|[]]; done|].
    by rewrite <-(ends_with_app_slash (String "/" "") (String d r)).
  - destruct (_ && _); [|done]. by rewrite (ends_with_app_slash "**/" (String c r)).
Qed.
Lemma collapse_id s : nodd s → collapse s = s.
Proof. intros H. unfold collapse. destruct s; [done|]. cbn [String.length collapse_fuel]. by rewrite H. Qed.
Lemma trim_one_slash b : nodd (b +:+ "/") → trim_end_slashes (b +:+ "/") = b.
Proof.
  intros H. unfold trim_end_slashes. rewrite str_rev_app. change (str_rev "/" +:+ str_rev b) with (String "/" (str_rev b)).
  cbn [drop_slashes]. rewrite Ascii.eqb_refl.
  assert (starts_with "/" (str_rev b) = false) as E.
  { destruct (starts_with "/" (str_rev b)) eqn:E; [|done]. exfalso.
    assert (ends_with "/" b = true) as [t ->]%ends_with_spec by done.
    apply (proj1 (nodd_spec _) H t ""). by rewrite <-str_app_assoc. }
  destruct (str_rev b) as [|c r] eqn:Er.
  - apply (f_equal str_rev) in Er. by rewrite str_rev_involutive in Er.
  - cbn [drop_slashes]. cbn [starts_with] in E. destruct (Ascii.eqb_spec c "/") as [->|].
    + by rewrite Ascii.eqb_refl in E.
    + by rewrite <-Er, str_rev_involutive.
Qed.

(** Blank and comment lines yield nothing; every other line one or two patterns, all with the
    line's negation and none containing a double slash; parsing is total. *)
Theorem C28_line_shape : ∀ line,
  ((line_text line = "" ∨ starts_with "#" (line_text line) = true) → parse_line line = []) ∧
  (line_text line ≠ "" → starts_with "#" (line_text line) = false →
     (∃ p, parse_line line = [p]) ∨ (∃ p q, parse_line line = [p; q] ∧ ip_pattern p = ip_pattern q +:+ "/**")) ∧
  (∀ p, p ∈ parse_line line → contains "//" (ip_pattern p) = false ∧
     (ip_negate p = true ↔ starts_with "!" (line_text line) = true)).
Proof.
  intros line. split; [|split].
  - unfold parse_line. intros [-> | ->]; [done|]. by rewrite orb_true_r.
  - unfold parse_line. intros H1 H2. apply String.eqb_neq in H1. rewrite H1, H2. cbn [orb].
    set (pat := if _ && _ then _ else _). destruct (_ && _ && _); [right|left]; by repeat eexists.
  - intros p Hp. split; [by apply (parse_line_nodd line)|].
    unfold parse_line in Hp. destruct (String.eqb (line_text line) "" || _); [by apply elem_of_nil in Hp|].
    assert (ip_negate p = line_negate (line_text line)) as ->.
    { apply elem_of_app in Hp as [Hp|Hp]; [destruct (_ && _ && _); [|by apply elem_of_nil in Hp]|];
        by apply elem_of_list_singleton in Hp as ->. }
    unfold line_negate. destruct (starts_with "\!" (line_text line)) eqn:E; [|done].
    apply starts_with_spec in E as [t ->]. done.
Qed.
Print Assumptions C28_line_shape.

(** The exact patterns of a line whose body is [b]. *)
Definition C28_expected (neg wild : bool) (b : string) : list ignore_pattern :=
  if ends_with "/" b then [IP neg (glob_for b +:+ "**")]
  else if wild then [IP neg (glob_for b)]
  else [IP neg (glob_for b +:+ "/**"); IP neg (glob_for b)].
Definition C28_full : Prop := ∀ line, 
  let t := line_text line in let b := line_body t in
  t ≠ "" → starts_with "#" t = false → contains "//" b = false →
  parse_line line = C28_expected (line_negate t) (contains "*" t || contains "?" t) b.

(** False for the lines "!" and "/": a lone "!" un-ignores everything below. *)
Theorem C28_refuted : ¬ C28_full.
Proof. intros H. specialize (H "!" ltac:(discriminate) eq_refl eq_refl). vm_compute in H. discriminate. Qed.
Print Assumptions C28_refuted.
Example C28_lone_negation : parse_line "!" = [IP true "**/**"].
Proof. reflexivity. Qed.

Theorem C28_patterns_partial : ∀ line,
  let t := line_text line in let b := line_body t in
  t ≠ "" → starts_with "#" t = false → contains "//" b = false → b ≠ "" → ¬ only_slashes b →
  parse_line line = C28_expected (line_negate t) (contains "*" t || contains "?" t) b.
Proof.
  intros line t b Ht Hc Hd Hb Hs. unfold parse_line. fold t. apply String.eqb_neq in Ht. rewrite Ht, Hc. cbn [orb].
  fold b. rewrite (collapse_id b Hd), glob_for_anchor.
  pose proof (glob_for_slash b Hb Hs Hd) as Hsl. unfold C28_expected. rewrite Hsl.
  destruct (ends_with "/" b) eqn:Ee.
  - cbn [negb andb app].
    assert (ends_with "/**" (glob_for b) = false) as ->.
    { apply Bool.not_true_iff_false. rewrite ends_with_spec. intros [u Eu].
      apply ends_with_spec in Hsl as [v Ev]. rewrite Eu in Ev.
      apply (f_equal str_rev) in Ev. rewrite !str_rev_app in Ev. by vm_compute in Ev. }
    cbn [negb]. assert (nodd (glob_for b)) as Hn by (rewrite <-glob_for_anchor; by apply anchor_nodd).
    apply ends_with_spec in Hsl as [v Ev]. rewrite Ev in *. rewrite trim_one_slash by done.
    by rewrite <-str_app_assoc.
  - cbn [negb andb]. destruct (contains "*" t), (contains "?" t); done.
Qed.
Print Assumptions C28_patterns_partial.
Example C28_nonvacuous : parse_line "  target " = [IP false "**/target/**"; IP false "**/target"]
  ∧ parse_line "/build/" = [IP false "build/**"] ∧ parse_line "!src/*.o" = [IP true "src/*.o"]
  ∧ parse_line "# comment" = [] ∧ parse_line "a//b" = [IP false "a/b/**"; IP false "a/b"]
  ∧ parse_line "\!x" = [IP false "**/!x/**"; IP false "**/!x"].
Proof. done. Qed.

Lemma mjoin_app' {A} (l k : list (list A)) : mjoin (l ++ k) = mjoin l ++ mjoin k.
Proof. induction l as [|x l IH]; [done|]. change (x ++ mjoin (l ++ k) = (x ++ mjoin l) ++ mjoin k). by rewrite IH, app_assoc. Qed.

(** Line by line. *)
Theorem C28_lines : ∀ a b, parse_ignore_content (a +:+ String "010" b) =
  parse_ignore_content (a +:+ String "010" "") ++ parse_ignore_content b.
Proof.
  intros a b. unfold parse_ignore_content, lines. rewrite !split_on_app. cbn [split_on].
  rewrite last_snoc, removelast_snoc. cbn [default]. rewrite String.eqb_refl, app_nil_r.
  destruct (list_snoc_case (split_on "010" b)) as [E|(k & x & E)].
  - exfalso. destruct b as [|c b]; [done|]. simpl in E. destruct (Ascii.eqb c "010"); [done|].
    by destruct (split_on "010" b).
  - rewrite E, app_assoc, !last_snoc, !removelast_snoc. cbn [default].
    rewrite !fmap_app, !mjoin_app'. by rewrite app_assoc.
Qed.
Print Assumptions C28_lines.

(** ** C29: last match wins, built-ins always win *)

(** [rules_from f up lo sub] are the rules of the ignore files of the directories from the
    outermost to the innermost, each paired with the path relative to its directory. *)
Theorem C29_last_match_wins : ∀ glob f ub enc base sub,
  utf8_valid (path_str (base ++ sub)) = true →
  ∃ b c, is_ignored glob f ub enc base sub ∅ = (Ok b, c) ∧
    (b = true ↔
       (∃ pat, pat ∈ BUILT_IN ∧ glob pat (path_str (base ++ sub)) = true) ∨
       (∃ l1 ip rel l2, rules_from f (ub ++ [enc]) base sub = l1 ++ (ip, rel) :: l2 ∧
          glob (ip_pattern ip) rel = true ∧ ip_negate ip = false ∧
          ∀ ip' rel', (ip', rel') ∈ l2 → glob (ip_pattern ip') rel' = false)).
Proof.
  intros glob f ub enc base sub Hu. unfold is_ignored. rewrite Hu. cbn [negb].
  destruct (existsb (λ pat, glob pat (path_str (base ++ sub))) BUILT_IN) eqn:Eb.
  - do 2 eexists. split; [done|]. split; [|done]. intros _. left. apply existsb_exists in Eb as (pat & Hp & Hg).
    exists pat. split; [by apply elem_of_list_In|done].
  - destruct (ignore_loop_spec glob f (λ c, ∀ q x r ps, sub = q ++ x :: r → c !! (base ++ q ++ [x]) = Some ps →
       ps = resolve_ignores f ((ub ++ [enc]) ++ q ++ [x]) (base ++ q ++ [x])) sub (ub ++ [enc]) base false ∅)
      as (c & -> & _).
    + intros q x r ps _ H. by rewrite lookup_empty in H.
    + intros c q x r ps Hc E H. by apply (Hc q x r).
    + intros c q x r Hc E q' x' r' ps E' H. destruct (decide (base ++ q ++ [x] = base ++ q' ++ [x'])) as [Eq|Hne].
      * apply app_inv_head in Eq. rewrite <-Eq in *. rewrite lookup_insert in H. by injection H as <-.
      * rewrite lookup_insert_ne in H by done. by apply (Hc q' x' r').
    + do 2 eexists. split; [done|]. fold (verdict glob (rules_from f (ub ++ [enc]) base sub)).
      rewrite verdict_spec. split.
      * intros (l1 & [ip rel] & l2 & E & Hf & Hn & Hl). right. exists l1, ip, rel, l2. split; [done|]. split; [done|].
        split; [done|]. intros ip' rel' H. by apply (Hl (ip', rel')).
      * intros [(pat & Hp & Hg)|(l1 & ip & rel & l2 & E & Hf & Hn & Hl)].
        -- exfalso. rewrite <-Bool.not_true_iff_false in Eb. apply Eb. apply existsb_exists. exists pat.
           split; [by apply elem_of_list_In|done].
        -- exists l1, (ip, rel), l2. split; [done|]. split; [done|]. split; [done|]. intros [ip' rel'] H. by apply Hl.
Qed.
Print Assumptions C29_last_match_wins.

(** A directory with an ignore file: "*.o" ignored except "keep.o". *)
Definition ign_glob (p s : string) : bool :=
  String.eqb p s || (String.eqb p "**/*.o" && ends_with ".o" s) || (String.eqb p "**/keep.o" && ends_with "keep.o" s).
Definition ign_fs : fs := list_to_map
  [ ([], dir0); (["p"], dir0); (["p"; ".gitignore"], file_ ("*.o" +:+ String "010" "!keep.o"));
    (["sbx"], dir0); (["sbx"; "up"], dir0); (["sbx"; "up"; "F4"], dir0); (["sbx"; "up"; "F4"; "p"], dir0);
    (["sbx"; "up"; "F4"; "p"; "a.o"], file_ "1"); (["sbx"; "up"; "F4"; "p"; "keep.o"], file_ "2") ].
Example C29_nonvacuous :
  fst (is_ignored ign_glob ign_fs demo_ub "F4" [] ["p"; "a.o"] ∅) = Ok true ∧
  fst (is_ignored ign_glob ign_fs demo_ub "F4" [] ["p"; "keep.o"] ∅) = Ok false ∧
  length (rules_from ign_fs (demo_ub ++ ["F4"]) [] ["p"; "keep.o"]) = 3.
Proof. vm_compute. done. Qed.

(** ** C30: ignore decisions do not depend on what was visited before *)
(** The cache after visiting [hist]. *)
Definition visit (glob : string → string → bool) (f : fs) (ub : path) (hist : list (path * path)) : cache :=
  foldl (λ c ms, snd (is_ignored glob f ub (b32_encode (path_str ms.1)) ms.1 ms.2 c)) ∅ hist.
Definition verdict_after (glob : string → string → bool) (f : fs) (ub : path) (hist : list (path * path)) (m s : path) : res bool :=
  fst (is_ignored glob f ub (b32_encode (path_str m)) m s (visit glob f ub hist)).

Definition C30_full : Prop := ∀ glob f ub ms hist m s n, storage_ok f ub ms →
  (∀ m' s', (m', s') ∈ hist → m' ∈ ms ∧ ∃ n', staged_at f ub m' s' n') → m ∈ ms → staged_at f ub m s n →
  verdict_after glob f ub hist m s = verdict_after glob f ub [] m s.

(** False when a staged path lies below another mount point (something was mounted there after
    the sandbox had been used): the cache is keyed by the host directory only. *)
Definition two_fs : fs := list_to_map
  [ ([], dir0); (["a"], dir0); (["sbx"], dir0); (["sbx"; "up"], dir0);
    (["sbx"; "up"; "F4"], dir0); (["sbx"; "up"; "F4"; "a"], dir0); (["sbx"; "up"; "F4"; "a"; "b"], dir0);
    (["sbx"; "up"; "F4"; "a"; "b"; ".ignore"], file_ "/x"); (["sbx"; "up"; "F4"; "a"; "b"; "x"], file_ "1");
    (["sbx"; "up"; "F5QQ"], dir0); (["sbx"; "up"; "F5QQ"; "b"], dir0); (["sbx"; "up"; "F5QQ"; "b"; "x"], file_ "2") ].
Lemma two_storage : storage_ok two_fs demo_ub [[]; ["a"]].
Proof. apply storage_okb_spec. vm_compute. reflexivity. Qed.
Theorem C30_refuted : ¬ C30_full.
Proof.
  intros H.
  pose proof (H (λ p s, String.eqb p s) two_fs demo_ub [[]; ["a"]] [([], ["a"; "b"; "x"])] ["a"] ["b"; "x"] (file_ "2") two_storage) as H1.
  clear H.
  assert (verdict_after (λ p s, String.eqb p s) two_fs demo_ub [([], ["a"; "b"; "x"])] ["a"] ["b"; "x"] = Ok true) as E1
    by (vm_compute; reflexivity).
  assert (verdict_after (λ p s, String.eqb p s) two_fs demo_ub [] ["a"] ["b"; "x"] = Ok false) as E2
    by (vm_compute; reflexivity).
  rewrite E1, E2 in H1. clear E1 E2.
  assert (Ok true = Ok false) as E; [|discriminate]. apply H1.
  - intros m' s' Hin. apply elem_of_list_singleton in Hin. injection Hin as -> ->. split; [left|].
    exists (file_ "1"). split; [discriminate|]. vm_compute. reflexivity.
  - right. left.
  - split; [discriminate|]. vm_compute. reflexivity.
Qed.
Print Assumptions C30_refuted.

Theorem C30_verdict_independent_of_history_partial : ∀ glob f ub ms hist m s n, sandbox_ok f ub ms →
  (∀ m' s', (m', s') ∈ hist → m' ∈ ms ∧ ∃ n', staged_at f ub m' s' n') → m ∈ ms → staged_at f ub m s n →
  verdict_after glob f ub hist m s = verdict_after glob f ub [] m s.
Proof.
  intros glob f ub ms hist m s n Hok Hh Hm Hs.
  assert (∀ c m s n, m ∈ ms → staged_at f ub m s n → cache_ok f ub ms c →
     cache_ok f ub ms (snd (is_ignored glob f ub (b32_encode (path_str m)) m s c))) as Hstep.
  { intros c m' s' n' Hm' Hs' Hc. destruct (utf8_valid (path_str (m' ++ s'))) eqn:Eu.
    - destruct (is_ignored_spec f ub ms Hok glob m' s' n' c Hm' Hs' Hc Eu) as (c' & -> & Hc'). done.
    - unfold is_ignored. rewrite Eu. done. }
  assert (∀ c, cache_ok f ub ms c → cache_ok f ub ms
     (foldl (λ c ms, snd (is_ignored glob f ub (b32_encode (path_str ms.1)) ms.1 ms.2 c)) c hist)) as Hvisit.
  { clear Hm Hs. induction hist as [|[m' s'] hist IH]; intros c Hc; [done|]. cbn [foldl]. apply IH.
    - intros m0 s0 H0. apply Hh. by right.
    - destruct (Hh m' s' ltac:(left)) as (Hm' & n' & Hs'). by apply (Hstep _ _ _ n'). }
  assert (cache_ok f ub ms ∅) as H0 by (intros cl ps H; by rewrite lookup_empty in H).
  unfold verdict_after, visit.
  destruct (utf8_valid (path_str (m ++ s))) eqn:Eu.
  - destruct (is_ignored_spec f ub ms Hok glob m s n _ Hm Hs (Hvisit _ H0) Eu) as (c1 & -> & _).
    cbn [foldl]. destruct (is_ignored_spec f ub ms Hok glob m s n _ Hm Hs H0 Eu) as (c2 & -> & _). done.
  - unfold is_ignored. rewrite Eu. done.
Qed.
Print Assumptions C30_verdict_independent_of_history_partial.

(** The listing does not depend on the order in which directories are read. *)
Theorem C30_listing_order_partial : ∀ e1 e2 f ub ms l1 l2, sandbox_ok f ub ms →
  env_ok e1 → env_ok e2 → e_glob e1 = e_glob e2 →
  changes e1 f ub false = Ok l1 → changes e2 f ub false = Ok l2 → ∀ c, c ∈ l1 ↔ c ∈ l2.
Proof.
  intros e1 e2 f ub ms l1 l2 Hok He1 He2 Eg H1 H2 c. pose proof (text_staged f ub ms Hok) as Hu.
  destruct (changes_not_ignored f ub ms Hok e1 He1 Hu) as (l1' & E1 & Hl1).
  destruct (changes_not_ignored f ub ms Hok e2 He2 Hu) as (l2' & E2 & Hl2).
  assert (l1' = l1) as -> by congruence. assert (l2' = l2) as -> by congruence.
  by rewrite Hl1, Hl2, Eg.
Qed.
Print Assumptions C30_listing_order_partial.

Lemma ign_ok : sandbox_ok ign_fs demo_ub [[]].
Proof. apply sandbox_okb_spec. vm_compute. reflexivity. Qed.
Lemma ign_utf8 m s n : m ∈ [[]] → staged_at ign_fs demo_ub m s n → utf8_valid (path_str (m ++ s)) = true.
Proof.
  intros Hm Hs.
  assert (on_staged ign_fs demo_ub [[]] (λ m s n, utf8_valid (path_str (m ++ s))) = true) as Hc by (vm_compute; reflexivity).
  exact (on_staged_spec _ _ _ _ Hc m s n Hm Hs).
Qed.
Example C30_nonvacuous : verdict_after ign_glob ign_fs demo_ub [([], ["p"; "keep.o"]); ([], ["p"])] [] ["p"; "a.o"] = Ok true
  ∧ visit ign_glob ign_fs demo_ub [([], ["p"; "keep.o"])] ≠ ∅.
Proof. split; [vm_compute; reflexivity|]. intros H. vm_compute in H. discriminate. Qed.

(** ** C31: --ignored only adds changes *)
Theorem C31_ignored_only_adds_partial : ∀ e f ub ms, sandbox_ok f ub ms → env_ok e →
  ∃ l all, changes e f ub false = Ok l ∧ changes e f ub true = Ok all ∧
    (* nothing is listed differently *)
    (∀ c, c ∈ l → c ∈ all) ∧
    (* and what is missing comes from a staged path that is ignored *)
    (∀ c, c ∈ all → c ∈ l ∨ ∃ m s n, m ∈ ms ∧ staged_at f ub m s n ∧ verdict_after (e_glob e) f ub [] m s = Ok true ∧
        (c_dest c = m ++ s ∨ c_op c = ORemove ∧ under (m ++ s) (c_dest c) = true)) ∧
    (* staged paths that are not ignored are listed *)
    (∀ m s n d c, m ∈ ms → staged_at f ub m s n → verdict_after (e_glob e) f ub [] m s = Ok false →
       c ∈ all → c_staged c = Some d → d_path d = upper_dir ub m ++ s → c ∈ l).
Proof.
  intros e f ub ms Hok He. pose proof (text_staged f ub ms Hok) as Hu.
  destruct (changes_not_ignored f ub ms Hok e He Hu) as (l & El & Hl).
  destruct (changes_complete f ub ms Hok e He) as (all & Eall & Hall).
  assert (∀ m s n, m ∈ ms → staged_at f ub m s n → verdict_after (e_glob e) f ub [] m s = Ok (ignored_path (e_glob e) f ub m s)) as Hv.
  { intros m s n Hm Hs. unfold verdict_after, visit. cbn [foldl].
    destruct (is_ignored_spec f ub ms Hok (e_glob e) m s n ∅ Hm Hs) as (c & -> & _); [|by eapply Hu|done].
    intros cl ps H. by rewrite lookup_empty in H. }
  exists l, all. split; [done|]. split; [done|]. split; [|split].
  - intros c Hc. apply Hl in Hc as (m & s & n & H1 & H2 & _ & H3). apply Hall. by exists m, s, n.
  - intros c Hc. apply Hall in Hc as (m & s & n & H1 & H2 & H3).
    destruct (ignored_path (e_glob e) f ub m s) eqn:Ei.
    + right. exists m, s, n. split; [done|]. split; [done|]. split; [by rewrite (Hv m s n), Ei|].
      destruct H3 as [(_ & q & k & Hq & _ & ->)|[(_ & _ & ->)|(_ & _ & ->)]]; [by right|by left|by left].
    + left. apply Hl. by exists m, s, n.
  - intros m s n d c Hm Hs Hvd Hc Hd Hp. rewrite (Hv m s n) in Hvd by done. injection Hvd as Hvd.
    apply Hall in Hc as (m' & s' & n' & H1 & H2 & H3). apply Hl. exists m', s', n'. split; [done|]. split; [done|].
    split; [|done].
    assert (d = details_of (upper_dir ub m' ++ s') n') as ->.
    { destruct H3 as [(_ & q & k & Hq & _ & ->)|[(_ & _ & ->)|(_ & _ & ->)]]; simpl in Hd; [|by injection Hd as <-..].
      destruct (decide (q = m' ++ s')); [|done]. by injection Hd as <-. }
    simpl in Hp. by apply (upper_dir_inj f ub ms Hok) in Hp as [-> ->].
Qed.
Print Assumptions C31_ignored_only_adds_partial.
Definition ign_env : env := Env ign_glob (λ l, l) (λ _ _, "uuid") ["home"] 18.
Example C31_nonvacuous : ∃ l all, changes ign_env ign_fs demo_ub false = Ok l ∧ changes ign_env ign_fs demo_ub true = Ok all ∧
  length l = 2 ∧ length all = 3.
Proof. do 2 eexists. vm_compute. done. Qed.

(** ** C55: listing stays possible for every file name *)

(** What is assumed of a sandbox everywhere else, but with arbitrary file names. *)
Record any_names_ok (f : fs) (ub : path) (ms : list path) : Prop := {
  an_wf : wf_tree f;
  an_ub : ∃ d, f !! ub = Some d ∧ n_kind d = KDir;
  an_mount : ∀ m, m ∈ ms → (∃ d, f !! m = Some d ∧ n_kind d = KDir) ∧ utf8_valid (path_str m) = true;
  an_child : ∀ c n, f !! (ub ++ [c]) = Some n → ∃ m, m ∈ ms ∧ c = b32_encode (path_str m);
  an_entry : ∀ m s n, m ∈ ms → staged_at f ub m s n → entry_ok n;
  an_host : ∀ m s n, m ∈ ms → staged_at f ub m s n → host_ok f ub ms m s n;
}.
Definition C55_full : Prop := ∀ e f ub ms inc, any_names_ok f ub ms → env_ok e → is_ok (changes e f ub inc) = true.

(** False: one file whose name is not valid UTF-8 makes every command that lists changes panic, and with
    [--ignored] fail (the attributes of the file are looked up under another name). *)
Definition name_fs : fs := list_to_map
  [ ([], dir0); (["sbx"], dir0); (["sbx"; "up"], dir0); (["sbx"; "up"; "F4"], dir0);
    (["sbx"; "up"; "F4"; latin1], file_ "x"); (["sbx"; "up"; "F4"; "other"], file_ "y") ].
Definition any_namesb (f : fs) (ub : path) (ms : list path) : bool :=
  wf_treeb f && dirb f ub && forallb (λ m, dirb f m && utf8_valid (path_str m)) ms &&
  on_fs f (λ k n, match path_strip ub k with
                  | Some [c] => existsb (λ m, String.eqb c (b32_encode (path_str m))) ms
                  | _ => true end) &&
  on_staged f ub ms (λ m s n, entry_okb n && host_okb f ub ms m s n).
Lemma any_namesb_spec (f : fs) (ub : path) (ms : list path) : any_namesb f ub ms = true → any_names_ok f ub ms.
Proof.
  unfold any_namesb. rewrite !andb_true_iff. intros [[[[H1 H2] H3] H4] H5]. pose proof (on_staged_spec _ _ _ _ H5) as H. split.
  - by apply wf_treeb_spec.
  - by apply dirb_spec.
  - intros m Hm. rewrite forallb_forall in H3. apply elem_of_list_In, H3 in Hm.
    rewrite andb_true_iff in Hm. destruct Hm as [Hm1 Hm2]. split; [|done]. by apply dirb_spec.
  - intros c n Hn. apply (on_fs_spec _ _ H4) in Hn. rewrite path_strip_app in Hn.
    apply existsb_exists in Hn as (m & Hm & Hc). exists m. split; [by apply elem_of_list_In|].
    by apply String.eqb_eq.
  - intros m s n Hm Hs. specialize (H m s n Hm Hs). apply andb_true_iff in H as [H _]. by apply entry_okb_spec.
  - intros m s n Hm Hs. specialize (H m s n Hm Hs). apply andb_true_iff in H as [_ H]. by apply host_okb_spec.
Qed.
Lemma name_ok : any_names_ok name_fs demo_ub [[]].
Proof. apply any_namesb_spec. vm_compute. reflexivity. Qed.
Theorem C55_refuted : ¬ C55_full.
Proof.
  intros H. pose proof (H demo_env name_fs demo_ub [[]] false name_ok demo_env_ok) as H1. clear H.
  vm_compute in H1. discriminate.
Qed.
Print Assumptions C55_refuted.
Theorem C55_ignored_refuted :
  ¬ (∀ e f ub ms, any_names_ok f ub ms → env_ok e → is_ok (changes e f ub true) = true).
Proof.
  intros H. pose proof (H demo_env name_fs demo_ub [[]] name_ok demo_env_ok) as H1. clear H.
  vm_compute in H1. discriminate.
Qed.
Print Assumptions C55_ignored_refuted.
Example C55_panics : changes demo_env name_fs demo_ub false = Err (EPanic "lower_path should have a string representation")
  ∧ changes demo_env name_fs demo_ub true = Err ENOENT.
Proof. split; vm_compute; reflexivity. Qed.

(** Listing succeeds, with and without [--ignored], whenever the names in the upper directory are valid
    UTF-8. *)
Theorem C55_listing_possible_partial : ∀ e f ub ms inc, any_names_ok f ub ms → env_ok e →
  (∀ p n, f !! p = Some n → under ub p = true → Forall (λ x, utf8_valid x = true) p) →
  is_ok (changes e f ub inc) = true.
Proof.
  intros e f ub ms inc Ha He Hu.
  assert (sandbox_ok f ub ms) as Hok by (destruct Ha; split; [split; done|done|done]).
  destruct inc.
  - by destruct (changes_complete f ub ms Hok e He) as (l & -> & _).
  - by destruct (changes_not_ignored f ub ms Hok e He (text_staged f ub ms Hok)) as (l & -> & _).
Qed.
Print Assumptions C55_listing_possible_partial.
Definition accent : string := of_bytes [ascii_of_nat 195; ascii_of_nat 169].
Definition accent_fs : fs := list_to_map
  [ ([], dir0); (["sbx"], dir0); (["sbx"; "up"], dir0); (["sbx"; "up"; "F4"], dir0);
    (["sbx"; "up"; "F4"; accent], file_ "x"); (["sbx"; "up"; "F4"; "other"], file_ "y") ].
Example C55_nonvacuous : sandbox_ok accent_fs demo_ub [[]] ∧
  match changes demo_env accent_fs demo_ub true with Ok l => length l | Err _ => 0 end = 2.
Proof. split; [apply sandbox_okb_spec|]; vm_compute; reflexivity. Qed.
