(** * C34, C35, C36, C56: configuration *)
From Verif Require Import FSFacts PathFacts Checkers Config.

(** ** Specification of the bind argument syntax (C35) *)

(** [arg] is [source], [source:target] or [source:target:options]; source and target have no colon. *)
Inductive bind_syntax : string → string → option string → option string → Prop :=
  | BS_source (s : string) : contains ":" s = false → bind_syntax s s None None
  | BS_target (s t : string) : contains ":" s = false → contains ":" t = false →
      bind_syntax (s +:+ ":" +:+ t) s (Some t) None
  | BS_options (s t o : string) : contains ":" s = false → contains ":" t = false →
      bind_syntax (s +:+ ":" +:+ t +:+ ":" +:+ o) s (Some t) (Some o).

(** What the options word means. *)
Inductive options_mean : option string → bopt → Prop :=
  | OM_none : options_mean None ReadWrite
  | OM_empty : options_mean (Some "") ReadWrite
  | OM_rw : options_mean (Some "rw") ReadWrite
  | OM_ro : options_mean (Some "ro") ReadOnly
  | OM_mask : options_mean (Some "mask") Mask.

(** [~] and [~/…] stand for the home directory [h]. *)
Inductive tilde (home : res string) : string → string → Prop :=
  | T_plain (s : string) : starts_with "~" s = false → tilde home s s
  | T_home (h : string) : home = Ok h → tilde home "~" h
  | T_below (h r : string) : home = Ok h → tilde home ("~/" +:+ r) (join_str h r)
  | T_other (h s : string) : home = Ok h → starts_with "~" s = true → s ≠ "~" →
      starts_with "~/" s = false → tilde home s s.

(** The object a path names. *)
Definition object (f : fs) (cwd : path) (s : string) (q : path) : Prop :=
  s ≠ "" ∧ lookup_f f (kernel_path cwd s) = Ok q ∧ is_Some (f !! q).

Record bind_spec (f : fs) (cwd : path) (home : res string) (arg : string) (b : bind_mount) : Prop := {
  bs_argument : b_argument b = arg;
  bs_parts : ∃ (s s' t' : string) (t o : option string),
    bind_syntax arg s t o ∧ tilde home s s' ∧
    (* the target defaults to the source *)
    match t with None | Some "" => t' = s' | Some t => tilde home t t' end ∧
    (* the source must exist and is canonical *)
    (∃ q, object f cwd s' q ∧ b_source b = PB true q) ∧
    (* an existing target is canonical, a missing one is kept as written *)
    ((∃ q, object f cwd t' q ∧ b_target b = PB true q) ∨
     (¬ (∃ q, object f cwd t' q) ∧ b_target b = to_pbuf t')) ∧
    options_mean o (b_options b);
}.

(** ** String facts *)
Lemma contains1_cons (c a : ascii) (s : string) :
  contains (String c "") (String a s) = false ↔ a ≠ c ∧ contains (String c "") s = false.
Proof.
  cbn [contains starts_with]. rewrite orb_false_iff, andb_true_r.
  split; intros [H1 H2]; (split; [|done]).
  - intros ->. by rewrite Ascii.eqb_refl in H1.
  - apply Ascii.eqb_neq. congruence.
Qed.
Lemma contains1_nil (c : ascii) : contains (String c "") "" = false.
Proof. done. Qed.

Lemma split_once_none (c : ascii) (s : string) :
  split_once c s = None ↔ contains (String c "") s = false.
Proof.
  induction s as [|a s IH]; [done|]. rewrite contains1_cons. cbn [split_once].
  destruct (Ascii.eqb_spec a c) as [->|Hne].
  - split; [done|]. intros [? _]. done.
  - destruct (split_once c s) as [[x y]|].
    + split; [done|]. intros [_ H]. apply IH in H. done.
    + rewrite <-IH. done.
Qed.
Lemma split_once_some (c : ascii) (s x y : string) :
  split_once c s = Some (x, y) ↔ contains (String c "") x = false ∧ s = x +:+ String c y.
Proof.
  revert x y. induction s as [|a s IH]; intros x y.
  - split; [done|]. intros [_ H]. destruct x; discriminate.
  - cbn [split_once]. destruct (Ascii.eqb_spec a c) as [->|Hne].
    + split.
      * intros [= <- <-]. done.
      * intros [Hx Hs]. destruct x as [|b x].
        { cbn in Hs. injection Hs as ->. done. }
        apply contains1_cons in Hx as [Hb _]. cbn in Hs. injection Hs as -> _. done.
    + destruct (split_once c s) as [[x' y']|] eqn:E.
      * split.
        { intros [= <- <-]. destruct (proj1 (IH x' y') eq_refl) as [H1 ->].
          split; [|done]. apply contains1_cons. done. }
        { intros [Hx Hs]. destruct x as [|b x]; cbn in Hs; injection Hs as -> Hs; [done|].
          apply contains1_cons in Hx as [Hb Hx]. pose proof (proj2 (IH x y) (conj Hx Hs)) as He. injection He as -> ->. done. }
      * split; [done|]. intros [Hx Hs]. destruct x as [|b x]; cbn in Hs; injection Hs as -> Hs; [done|].
        apply contains1_cons in Hx as [Hb Hx]. pose proof (proj2 (IH x y) (conj Hx Hs)). done.
Qed.

Lemma parse_options_spec (o : string) (x : bopt) : parse_options o = Ok x ↔ options_mean (Some o) x.
Proof.
  unfold parse_options. split.
  - destruct (String.eqb_spec o ""), (String.eqb_spec o "rw"), (String.eqb_spec o "ro"), (String.eqb_spec o "mask");
      subst; cbn; intros [= <-]; constructor.
  - inversion 1; subst; reflexivity.
Qed.

Lemma expand_tilde_spec (home : res string) (s s' : string) :
  expand_tilde home s = Ok s' ↔ tilde home s s'.
Proof.
  unfold expand_tilde. split.
  - destruct (starts_with "~" s) eqn:E1.
    + destruct home as [h|e]; cbn [rbind]; [|done].
      destruct (String.eqb_spec s "~") as [->|Hne].
      { intros [= <-]. by constructor. }
      destruct (strip_prefix "~/" s) as [r|] eqn:E2.
      { apply strip_prefix_spec in E2 as ->. intros [= <-]. by constructor. }
      intros [= <-]. eapply T_other; [done..|].
      destruct (starts_with "~/" s) eqn:E3; [|done].
      apply starts_with_spec in E3 as [t Ht]. rewrite (proj2 (strip_prefix_spec "~/" s t) Ht) in E2. done.
    + intros [= <-]. by constructor.
  - inversion 1; subst.
    + match goal with H : starts_with _ _ = false |- _ => rewrite H end. done.
    + done.
    + cbn [rbind]. done.
    + match goal with H : starts_with "~" _ = true |- _ => rewrite H end. cbn [rbind].
      destruct (String.eqb_spec s' "~"); [done|].
      destruct (strip_prefix "~/" s') as [r|] eqn:E2; [|done].
      apply strip_prefix_spec in E2. rewrite (proj2 (starts_with_spec "~/" s')) in * by eauto. done.
Qed.

Lemma canonicalize_spec (f : fs) (cwd : path) (s : string) (b : pbuf) :
  canonicalize f cwd s = Ok b ↔ ∃ q, object f cwd s q ∧ b = PB true q.
Proof.
  unfold canonicalize, object. destruct (String.eqb_spec s "") as [->|Hne].
  - split; [done|]. intros (q & (? & _) & _). done.
  - destruct (lookup_f f (kernel_path cwd s)) as [q|e] eqn:E; cbn [rbind].
    + destruct (f !! q) as [n|] eqn:En; split.
      * intros [= <-]. exists q. eauto 10.
      * intros (q' & (_ & [= <-] & _) & ->). done.
      * done.
      * intros (q' & (_ & [= <-] & [? ?]) & _). congruence.
    + split; [done|]. intros (q & (_ & ? & _) & _). done.
Qed.

Lemma path_exists_spec (f : fs) (cwd : path) (s : string) :
  path_exists f cwd s = true ↔ ∃ q, object f cwd s q.
Proof.
  unfold path_exists, exists_, stat, object. rewrite andb_true_iff, negb_true_iff, String.eqb_neq.
  destruct (lookup_f f (kernel_path cwd s)) as [q|e] eqn:E; cbn [rbind].
  - destruct (f !! q) as [n|] eqn:En; cbn; split.
    + intros [? _]. exists q. eauto.
    + intros (? & ? & _). done.
    + intros [_ ?]. done.
    + intros (? & _ & [= <-] & [? ?]). congruence.
  - split; [intros [_ ?]; done|]. intros (? & _ & ? & _). done.
Qed.

Lemma splitn3_spec (arg s : string) (t o : option string) :
  bind_syntax arg s t o ↔
  s = default "" (splitn3 arg !! 0) ∧ t = splitn3 arg !! 1 ∧ o = splitn3 arg !! 2.
Proof.
  assert (Hnorm : ∀ (x y : string), x +:+ ":" +:+ y = x +:+ String ":" y) by done.
  split.
  - inversion 1; subst; unfold splitn3.
    + by rewrite (proj2 (split_once_none _ _)).
    + rewrite (proj2 (split_once_some ":" (s +:+ ":" +:+ t0) s t0)) by done.
      rewrite (proj2 (split_once_none ":" t0)) by done. done.
    + rewrite (proj2 (split_once_some ":" (s +:+ ":" +:+ t0 +:+ ":" +:+ o0) s (t0 +:+ ":" +:+ o0))) by done.
      rewrite (proj2 (split_once_some ":" (t0 +:+ ":" +:+ o0) t0 o0)) by done. done.
  - intros (-> & -> & ->). unfold splitn3.
    destruct (split_once ":" arg) as [[a r]|] eqn:E1; [|constructor; by apply split_once_none].
    apply split_once_some in E1 as [Ha ->].
    destruct (split_once ":" r) as [[b o]|] eqn:E2.
    + apply split_once_some in E2 as [Hb ->]. cbn. by constructor.
    + apply split_once_none in E2. cbn. by constructor.
Qed.

(** The parts are determined by the argument. *)
Lemma bind_syntax_unique (arg s1 s2 : string) (t1 t2 o1 o2 : option string) :
  bind_syntax arg s1 t1 o1 → bind_syntax arg s2 t2 o2 → s1 = s2 ∧ t1 = t2 ∧ o1 = o2.
Proof. rewrite !splitn3_spec. intros (-> & -> & ->) (-> & -> & ->). done. Qed.
Lemma bind_syntax_total (arg : string) : ∃ s t o, bind_syntax arg s t o.
Proof. eexists _, _, _. by apply splitn3_spec. Qed.

(** ** C35 *)
(** A bind argument is accepted with result [b] exactly if [b] is what the syntax says. *)
Theorem C35_bind_argument (f : fs) (cwd : path) (home : res string) (arg : string) (b : bind_mount) :
  parse_bind_mount f cwd home arg = Ok b ↔ bind_spec f cwd home arg b.
Proof.
  unfold parse_bind_mount. split.
  - intros H.
    destruct (expand_tilde home (default "" (splitn3 arg !! 0))) as [s'|] eqn:E1; cbn [rbind] in H; [|done].
    set (tgt := match splitn3 arg !! 1 with
                | Some t => if String.eqb t "" then Ok s' else expand_tilde home t | None => Ok s' end) in H.
    destruct tgt as [t'|] eqn:E2; cbn [rbind] in H; [|done].
    destruct (canonicalize f cwd s') as [cs|] eqn:E3; cbn [rbind] in H; [|done].
    set (ct := if path_exists f cwd t' then canonicalize f cwd t' else Ok (to_pbuf t')) in H.
    destruct ct as [c|] eqn:E4; cbn [rbind] in H; [|done].
    set (op := match splitn3 arg !! 2 with Some o => parse_options o | None => Ok ReadWrite end) in H.
    destruct op as [o|] eqn:E5; cbn [rbind] in H; [|done].
    injection H as <-. split; [done|].
    exists (default "" (splitn3 arg !! 0)), s', t', (splitn3 arg !! 1), (splitn3 arg !! 2). cbn [b_source b_target b_options].
    split; [by apply splitn3_spec|]. split; [by apply expand_tilde_spec|].
    split.
    { subst tgt. destruct (splitn3 arg !! 1) as [[|a t]|]; [injection E2 as <-; done| |injection E2 as <-; done].
      cbn [String.eqb] in E2. by apply expand_tilde_spec. }
    split; [by apply canonicalize_spec|]. split.
    { subst ct. destruct (path_exists f cwd t') eqn:Ex.
      - left. by apply canonicalize_spec.
      - right. injection E4 as <-. split; [|done]. rewrite <-path_exists_spec. congruence. }
    subst op. destruct (splitn3 arg !! 2) as [o'|]; [by apply parse_options_spec|]. injection E5 as <-. constructor.
  - intros [<- (s & s' & t' & t & o & Hsyn & Hs & Ht & Hsrc & Htgt & Ho)].
    apply splitn3_spec in Hsyn as (-> & -> & ->).
    rewrite (proj2 (expand_tilde_spec home _ s') Hs). cbn [rbind].
    assert (match splitn3 (b_argument b) !! 1 with
            | Some t => if String.eqb t "" then Ok s' else expand_tilde home t | None => Ok s' end = Ok t') as ->.
    { destruct (splitn3 (b_argument b) !! 1) as [[|a t]|]; [by subst| |by subst].
      cbn [String.eqb]. by apply expand_tilde_spec. }
    cbn [rbind]. rewrite (proj2 (canonicalize_spec f cwd s' (b_source b)) Hsrc). cbn [rbind].
    assert ((if path_exists f cwd t' then canonicalize f cwd t' else Ok (to_pbuf t')) = Ok (b_target b)) as ->.
    { destruct (path_exists f cwd t') eqn:Ex.
      - apply canonicalize_spec. destruct Htgt as [?|[Hn _]]; [done|].
        apply path_exists_spec in Ex. done.
      - destruct Htgt as [(q & Hq & _)|[_ ->]]; [|done].
        rewrite (proj2 (path_exists_spec f cwd t')) in Ex by eauto. done. }
    cbn [rbind].
    assert (match splitn3 (b_argument b) !! 2 with Some o => parse_options o | None => Ok ReadWrite end
            = Ok (b_options b)) as ->.
    { destruct (splitn3 (b_argument b) !! 2) as [o|]; [by apply parse_options_spec|]. by inversion Ho. }
    cbn [rbind]. by destruct b.
Qed.

(** Unknown options are rejected; so is a source that does not exist. *)
Theorem C35_unknown_option (f : fs) (cwd : path) (home : res string) (s t o : string) :
  contains ":" s = false → contains ":" t = false → o ∉ [""; "rw"; "ro"; "mask"] →
  ∃ e, parse_bind_mount f cwd home (s +:+ ":" +:+ t +:+ ":" +:+ o) = Err e.
Proof.
  intros Hs Ht Ho. destruct (parse_bind_mount _ _ _ _) as [b|e] eqn:E; [|eauto].
  apply C35_bind_argument in E as [_ (s1 & s' & t' & t1 & o1 & Hsyn & _ & _ & _ & _ & Hom)].
  destruct (bind_syntax_unique _ _ _ _ _ _ _ Hsyn (BS_options s t o Hs Ht)) as (_ & _ & ->).
  destruct Ho. inversion Hom; subst; set_solver.
Qed.
Theorem C35_missing_source (f : fs) (cwd : path) (home : res string) (arg s s' : string) (t o : option string) :
  bind_syntax arg s t o → tilde home s s' → (¬ ∃ q, object f cwd s' q) →
  ∃ e, parse_bind_mount f cwd home arg = Err e.
Proof.
  intros Hsyn Hs Hno. destruct (parse_bind_mount _ _ _ _) as [b|e] eqn:E; [|eauto].
  apply C35_bind_argument in E as [_ (s1 & s1' & t' & t1 & o1 & Hsyn1 & Hs1 & _ & (q & Hq & _) & _)].
  destruct (bind_syntax_unique _ _ _ _ _ _ _ Hsyn Hsyn1) as (-> & _ & _).
  rewrite <-expand_tilde_spec in Hs, Hs1. rewrite Hs in Hs1. injection Hs1 as ->.
  destruct Hno. by exists q.
Qed.
Print Assumptions C35_bind_argument.
Print Assumptions C35_unknown_option.
Print Assumptions C35_missing_source.

(** ** C34 *)

(** The first source that sets a value. *)
Definition first_set {A : Type} (l : list (option A)) : option A := head (omap id l).
(** The configuration files' values, the most specific (last loaded) file first. *)
Definition in_files {A : Type} (w : world) (g : partial → option A) : list (option A) :=
  rev ((λ fp, g fp.2) <$> w_files w).
(** What an environment variable says; an empty value counts as unset where [nonempty_env] is used. *)
Definition in_env {A : Type} (w : world) (k : string) (parse : string → option A) : option A :=
  match w_env w !! k with Some v => parse v | None => None end.
Definition in_env_nonempty {A : Type} (w : world) (k : string) (parse : string → option A) : option A :=
  match w_env w !! k with Some "" => None | Some v => parse v | None => None end.

(** The bind arguments asked for by some source. *)
Inductive requested (w : world) (a : args) (ndb : bool) (net : network) (arg : string) : Prop :=
  | Q_default : ndb = false → arg ∈ w_default_binds w net → requested w a ndb net arg
  | Q_file (src : string) (p : partial) (l : list string) :
      (src, p) ∈ w_files w → p_bind p = Some l → arg ∈ l → requested w a ndb net arg
  | Q_file_mask (src : string) (p : partial) (l : list string) (m : string) :
      (src, p) ∈ w_files w → p_mask p = Some l → m ∈ l → arg = m +:+ "::mask" → requested w a ndb net arg
  | Q_env (v x : string) : w_env w !! "SANDBOX_BIND" = Some v → x ∈ split_on "," v → arg = trim x → arg ≠ "" →
      requested w a ndb net arg
  | Q_env_mask (v x : string) : w_env w !! "SANDBOX_MASK" = Some v → x ∈ split_on "," v → trim x ≠ "" →
      arg = trim x +:+ ":" +:+ trim x +:+ ":mask" → requested w a ndb net arg
  | Q_cli (l : list string) : a_bind a = Some l → arg ∈ l → requested w a ndb net arg
  | Q_cli_mask (l : list string) (m : string) : a_mask a = Some l → m ∈ l →
      arg = m +:+ ":" +:+ m +:+ ":mask" → requested w a ndb net arg.

Definition same_mount (b b' : bind_mount) : Prop :=
  b_source b = b_source b' ∧ b_target b = b_target b' ∧ b_options b = b_options b'.

Record precedence (w : world) (a : args) (cfg : config) : Prop := {
  pr_level : c_level cfg =
    default INFO (first_set (a_level a :: in_env w "SANDBOX_LOG_LEVEL" parse_level :: in_files w p_level));
  pr_net : c_net cfg =
    default NetNone (first_set (a_net a :: in_env_nonempty w "SANDBOX_NET" parse_network :: in_files w p_net));
  pr_ignored : c_ignored cfg =
    default false (first_set ((if a_ignored a then Some true else None) ::
                              in_env w "SANDBOX_IGNORED" parse_bool :: in_files w p_ignored));
  pr_ndb : c_ndb cfg =
    default false (first_set ((if a_ndb a then Some true else None) ::
                              in_env w "SANDBOX_NO_DEFAULT_BINDS" parse_bool :: in_files w p_ndb));
  pr_storage : w_resolve_storage w
    (first_set (a_storage a :: in_env_nonempty w "SANDBOX_STORAGE_DIR" Some :: in_files w p_storage))
    = Ok (c_storage cfg);
  pr_name : a_new a = false → a_last a = false →
    c_name cfg = default "sandbox" (first_set (a_name a :: in_env_nonempty w "SANDBOX_NAME" Some :: in_files w p_name));
  (* bind mounts of all sources accumulate, and there are no others *)
  pr_binds : ∀ arg, requested w a (c_ndb cfg) (c_net cfg) arg →
    ∃ b b', parse_bind_mount (w_fs w) (w_cwd w) (rbind (w_ugh w) (λ u, Ok (ugh_home u))) arg = Ok b ∧
            b' ∈ c_binds cfg ∧ same_mount b b';
  pr_binds_only : ∀ b, b ∈ c_binds cfg →
    requested w a (c_ndb cfg) (c_net cfg) (b_argument b) ∧
    parse_bind_mount (w_fs w) (w_cwd w) (rbind (w_ugh w) (λ u, Ok (ugh_home u))) (b_argument b) = Ok b;
}.

Lemma first_set_cons {A : Type} (x : option A) (l : list (option A)) :
  first_set (x :: l) = match x with Some v => Some v | None => first_set l end.
Proof. by destruct x. Qed.
Lemma first_set_over {A : Type} (x : option A) (l : list (option A)) : first_set (x :: l) = over (first_set l) x.
Proof. by destruct x. Qed.

Lemma load_partial_snoc (l : list (string * partial)) (acc : partial * sources) (src : string) (c : partial) :
  foldl (λ acc '(src, c), merge_configs acc c src) acc (l ++ [(src, c)]) =
  merge_configs (foldl (λ acc '(src, c), merge_configs acc c src) acc l) c src.
Proof. by rewrite foldl_app. Qed.

Lemma load_scalars (s0 : sources) (l : list (string * partial)) :
  let p := (foldl (λ acc '(src, c), merge_configs acc c src) (partial_default, s0) l).1 in
  p_level p = first_set (rev ((λ fp, p_level fp.2) <$> l)) ∧
  p_name p = first_set (rev ((λ fp, p_name fp.2) <$> l)) ∧
  p_storage p = first_set (rev ((λ fp, p_storage fp.2) <$> l)) ∧
  p_net p = first_set (rev ((λ fp, p_net fp.2) <$> l)) ∧
  p_ignored p = first_set (rev ((λ fp, p_ignored fp.2) <$> l)) ∧
  p_ndb p = first_set (rev ((λ fp, p_ndb fp.2) <$> l)) ∧
  (∀ x, x ∈ default [] (p_bind p) ↔ ∃ src c k, (src, c) ∈ l ∧ p_bind c = Some k ∧ x ∈ k) ∧
  (∀ x, x ∈ default [] (p_mask p) ↔ ∃ src c k, (src, c) ∈ l ∧ p_mask c = Some k ∧ x ∈ k).
Proof.
  induction l as [|[src c] l IH] using rev_ind.
  - cbn. split_and!; try done; intros x; (split; [by intros ?%elem_of_nil|]);
      intros (? & ? & ? & ?%elem_of_nil & _); done.
  - cbv zeta in *. rewrite load_partial_snoc.
    destruct (foldl _ _ l) as [b s]. destruct IH as (H1 & H2 & H3 & H4 & H5 & H6 & H7 & H8).
    cbn [fst] in *. cbn [merge_configs fst p_level p_name p_storage p_net p_ignored p_ndb p_bind p_mask].
    rewrite !fmap_app, !rev_app_distr. cbn [fmap list_fmap rev app snd].
    rewrite !first_set_over, <-H1, <-H2, <-H3, <-H4, <-H5, <-H6. split_and!; try done.
    + intros x. destruct (p_bind c) as [k|] eqn:Ek.
      * assert (x ∈ default [] (extend (p_bind b) k) ↔ x ∈ default [] (p_bind b) ∨ x ∈ k) as ->.
        { destruct (p_bind b); cbn; set_solver. }
        rewrite H7. split.
        { intros [(s1 & c1 & k1 & Hin & ? & ?)|Hx].
          - exists s1, c1, k1. split; [apply elem_of_app; by left|done].
          - exists src, c, k. split; [apply elem_of_app; right; by apply elem_of_list_singleton|done]. }
        { intros (s1 & c1 & k1 & [Hin|[= -> ->]%elem_of_list_singleton]%elem_of_app & Hk1 & Hx); [left; eauto 10|].
          right. congruence. }
      * rewrite H7. split.
        { intros (s1 & c1 & k1 & Hin & ? & ?). exists s1, c1, k1. split; [apply elem_of_app; by left|done]. }
        { intros (s1 & c1 & k1 & [Hin|[= -> ->]%elem_of_list_singleton]%elem_of_app & Hk1 & Hx); [eauto 10|].
          congruence. }
    + intros x. destruct (p_mask c) as [k|] eqn:Ek.
      * assert (x ∈ default [] (extend (p_mask b) k) ↔ x ∈ default [] (p_mask b) ∨ x ∈ k) as ->.
        { destruct (p_mask b); cbn; set_solver. }
        rewrite H8. split.
        { intros [(s1 & c1 & k1 & Hin & ? & ?)|Hx].
          - exists s1, c1, k1. split; [apply elem_of_app; by left|done].
          - exists src, c, k. split; [apply elem_of_app; right; by apply elem_of_list_singleton|done]. }
        { intros (s1 & c1 & k1 & [Hin|[= -> ->]%elem_of_list_singleton]%elem_of_app & Hk1 & Hx); [left; eauto 10|].
          right. congruence. }
      * rewrite H8. split.
        { intros (s1 & c1 & k1 & Hin & ? & ?). exists s1, c1, k1. split; [apply elem_of_app; by left|done]. }
        { intros (s1 & c1 & k1 & [Hin|[= -> ->]%elem_of_list_singleton]%elem_of_app & Hk1 & Hx); [eauto 10|].
          congruence. }
Qed.

Lemma elem_of_add_list (b : option (list string)) (l : list string) (x : string) :
  x ∈ default [] (add_list b l) ↔ x ∈ default [] b ∨ x ∈ l.
Proof. unfold add_list, extend. destruct l, b; cbn; set_solver. Qed.
Lemma elem_of_extend (b : option (list string)) (l : list string) (x : string) :
  x ∈ default [] (extend b l) ↔ x ∈ default [] b ∨ x ∈ l.
Proof. unfold extend. destruct b; cbn; set_solver. Qed.

Lemma nonempty_env_spec (w : world) (k : string) : nonempty_env w k = in_env_nonempty w k Some.
Proof. unfold nonempty_env, in_env_nonempty. destruct (w_env w !! k) as [[|a s]|]; done. Qed.

Lemma apply_env_ok (w : world) (a : args) (p p' : partial) (s s' : sources) :
  apply_env w a (p, s) = Ok (p', s') →
  p_level p' = over (p_level p) (in_env w "SANDBOX_LOG_LEVEL" parse_level) ∧
  p_name p' = over (p_name p) (if a_new a || a_last a then None else in_env_nonempty w "SANDBOX_NAME" Some) ∧
  p_storage p' = over (p_storage p) (in_env_nonempty w "SANDBOX_STORAGE_DIR" Some) ∧
  p_net p' = over (p_net p) (in_env_nonempty w "SANDBOX_NET" parse_network) ∧
  p_ignored p' = over (p_ignored p) (in_env w "SANDBOX_IGNORED" parse_bool) ∧
  p_ndb p' = over (p_ndb p) (in_env w "SANDBOX_NO_DEFAULT_BINDS" parse_bool) ∧
  p_mask p' = p_mask p ∧
  (∀ x, x ∈ default [] (p_bind p') ↔
     x ∈ default [] (p_bind p) ∨
     (∃ v y, w_env w !! "SANDBOX_BIND" = Some v ∧ y ∈ split_on "," v ∧ x = trim y ∧ x ≠ "") ∨
     (∃ v y, w_env w !! "SANDBOX_MASK" = Some v ∧ y ∈ split_on "," v ∧ trim y ≠ "" ∧
             x = trim y +:+ ":" +:+ trim y +:+ ":mask")).
Proof.
  unfold apply_env. rewrite !nonempty_env_spec. unfold in_env, in_env_nonempty.
  intros H.
  set (lv := match w_env w !! "SANDBOX_LOG_LEVEL" with
     | Some v => match parse_level v with Some l => Ok (Some l) | None => Err (EApp "Invalid log level") end
     | None => Ok None end) in H.
  destruct lv as [level|] eqn:E1; cbn [rbind] in H; [|done].
  set (nt := match match w_env w !! "SANDBOX_NET" with Some "" => None | Some v => Some v | None => None end with
     | Some v => match parse_network v with Some n => Ok (Some n) | None => Err (EApp "Invalid network type") end
     | None => Ok None end) in H.
  destruct nt as [net|] eqn:E2; cbn [rbind] in H; [|done].
  set (ig := match w_env w !! "SANDBOX_IGNORED" with
     | Some v => match parse_bool v with Some l => Ok (Some l) | None => Err (EApp "Invalid SANDBOX_IGNORED") end
     | None => Ok None end) in H.
  destruct ig as [ign|] eqn:E3; cbn [rbind] in H; [|done].
  set (nd := match w_env w !! "SANDBOX_NO_DEFAULT_BINDS" with
     | Some v => match parse_bool v with Some l => Ok (Some l) | None => Err (EPanic "Invalid value for SANDBOX_NO_DEFAULT_BINDS") end
     | None => Ok None end) in H.
  destruct nd as [ndb|] eqn:E4; cbn [rbind] in H; [|done].
  injection H as <- _. cbn [p_level p_name p_storage p_net p_ignored p_ndb p_mask p_bind].
  split_and!; try done.
  - subst lv. destruct (w_env w !! "SANDBOX_LOG_LEVEL") as [v|]; [|by injection E1 as <-].
    destruct (parse_level v); [|done]. by injection E1 as <-.
  - subst nt. destruct (w_env w !! "SANDBOX_NET") as [[|c v]|]; [by injection E2 as <-| |by injection E2 as <-].
    destruct (parse_network (String c v)); [|done]. by injection E2 as <-.
  - subst ig. destruct (w_env w !! "SANDBOX_IGNORED") as [v|]; [|by injection E3 as <-].
    destruct (parse_bool v); [|done]. by injection E3 as <-.
  - subst nd. destruct (w_env w !! "SANDBOX_NO_DEFAULT_BINDS") as [v|]; [|by injection E4 as <-].
    destruct (parse_bool v); [|done]. by injection E4 as <-.
  - intros x. rewrite !elem_of_add_list. clear.
    assert (∀ (k x : string), x ∈ match w_env w !! k with Some v => comma_list v | None => [] end ↔
      ∃ v y, w_env w !! k = Some v ∧ y ∈ split_on "," v ∧ x = trim y ∧ x ≠ "") as Hk.
    { clear. intros k x. destruct (w_env w !! k) as [v|].
      - unfold comma_list. rewrite elem_of_list_filter, elem_of_list_fmap. split.
        + intros (? & y & -> & ?). by exists v, y.
        + intros (v' & y & [= <-] & ? & -> & ?). split; [done|]. by exists y.
      - split; [by intros ?%elem_of_nil|]. intros (? & ? & ? & _). done. }
    rewrite (Hk "SANDBOX_BIND" x).
    assert (x ∈ match w_env w !! "SANDBOX_MASK" with
      Some v => mask_arg <$> comma_list v | None => [] end ↔
      ∃ v y, w_env w !! "SANDBOX_MASK" = Some v ∧ y ∈ split_on "," v ∧ trim y ≠ "" ∧ x = mask_arg (trim y)) as ->.
    { specialize (Hk "SANDBOX_MASK"). destruct (w_env w !! "SANDBOX_MASK") as [v|].
      - rewrite elem_of_list_fmap. setoid_rewrite Hk. split.
        + intros (z & -> & v' & y & ? & ? & -> & ?). by exists v', y.
        + intros (v' & y & ? & ? & ? & ->). exists (trim y). split; [done|]. by exists v', y.
      - split; [by intros ?%elem_of_nil|]. intros (? & ? & ? & _). done. }
    unfold mask_arg. tauto.
Qed.

Lemma apply_cli_ok (w : world) (a : args) (p p' : partial) (s s' : sources) :
  apply_cli w a (p, s) = Ok (p', s') →
  p_level p' = over (p_level p) (a_level a) ∧
  (a_new a = false → a_last a = false → p_name p' = over (p_name p) (a_name a)) ∧
  p_storage p' = over (p_storage p) (a_storage a) ∧
  p_net p' = over (p_net p) (a_net a) ∧
  p_ignored p' = over (p_ignored p) (if a_ignored a then Some true else None) ∧
  p_ndb p' = over (p_ndb p) (if a_ndb a then Some true else None) ∧
  p_mask p' = p_mask p ∧
  (∀ x, x ∈ default [] (p_bind p') ↔
     x ∈ default [] (p_bind p) ∨ (∃ l, a_bind a = Some l ∧ x ∈ l) ∨
     (∃ l m, a_mask a = Some l ∧ m ∈ l ∧ x = m +:+ ":" +:+ m +:+ ":mask")).
Proof.
  unfold apply_cli. intros H.
  set (nm := if a_new a then _ else _) in H.
  destruct nm as [[name s1]|] eqn:E; cbn [rbind] in H; [|done].
  injection H as <- _. cbn [p_level p_name p_storage p_net p_ignored p_ndb p_mask p_bind].
  split_and!; try done.
  - intros Hn Hl. subst nm. rewrite Hn, Hl in E. by injection E as <- _.
  - intros x. clear. destruct (a_mask a) as [m|], (a_bind a) as [b|]; rewrite ?elem_of_extend, ?elem_of_list_fmap;
      unfold mask_arg; split; intros H; repeat match goal with
        | H : _ ∨ _ |- _ => destruct H
        | H : ∃ _, _ |- _ => destruct H
        | H : _ ∧ _ |- _ => destruct H
        | H : Some _ = Some _ |- _ => injection H as <-
        end; subst; try done; eauto 10.
Qed.

Lemma collect_ok {A B : Type} (g : A → res B) (l : list A) (k : list B) :
  collect g l = Ok k → Forall2 (λ x y, g x = Ok y) l k.
Proof.
  revert k. induction l as [|x l IH]; intros k H; cbn in H.
  - injection H as <-. constructor.
  - destruct (g x) as [y|] eqn:Ex; cbn [rbind] in H; [|done].
    destruct (collect g l) as [ys|]; cbn [rbind] in H; [|done].
    injection H as <-. constructor; [done|]. by apply IH.
Qed.

Lemma dedupe_ok (l : list bind_mount) (m m' : gmap pbuf bind_mount) :
  (∀ t b, m !! t = Some b → b_target b = t) → dedupe m l = Ok m' →
  (∀ t b, m' !! t = Some b → b_target b = t ∧ (m !! t = Some b ∨ b ∈ l)) ∧
  (∀ t b, m !! t = Some b → m' !! t = Some b) ∧
  (∀ b, b ∈ l → ∃ b', m' !! b_target b = Some b' ∧ same_mount b b').
Proof.
  revert m. induction l as [|b l IH]; intros m Hm H; cbn [dedupe] in H.
  - injection H as <-. split_and!; [|done|by intros b ?%elem_of_nil].
    intros t b Hb. split; [by apply Hm|by left].
  - destruct (add_bind m b) as [m1|] eqn:E; cbn [rbind] in H; [|done].
    assert ((m1 = m ∧ ∃ x, m !! b_target b = Some x ∧ same_mount b x) ∨
            (m1 = <[b_target b := b]> m ∧ m !! b_target b = None)) as Hm1.
    { unfold add_bind in E. destruct (m !! b_target b) as [x|] eqn:Ex.
      - left. destruct (decide _) as [[Hs Ho]|]; [|done]. injection E as <-. split; [done|].
        exists x. split; [done|]. split; [done|]. split; [|done]. symmetry. by apply Hm.
      - right. injection E as <-. done. }
    assert (Ht : ∀ t b, m1 !! t = Some b → b_target b = t).
    { destruct Hm1 as [[-> _]|[-> _]]; [done|]. intros t b0.
      destruct (decide (t = b_target b)) as [->|Hne].
      - rewrite lookup_insert. by intros [= <-].
      - rewrite lookup_insert_ne by done. apply Hm. }
    destruct (IH m1 Ht H) as (H1 & H2 & H3). split_and!.
    + intros t b0 Hb0. destruct (H1 t b0 Hb0) as [Hbt Hin]. split; [done|].
      destruct Hin as [Hin|Hin]; [|right; by apply elem_of_list_further].
      destruct Hm1 as [[-> _]|[-> _]]; [by left|].
      destruct (decide (t = b_target b)) as [->|Hne].
      * rewrite lookup_insert in Hin. injection Hin as <-. right. constructor.
      * rewrite lookup_insert_ne in Hin by done. by left.
    + intros t b0 Hb0. apply H2. destruct Hm1 as [[-> _]|[-> Hno]]; [done|].
      rewrite lookup_insert_ne; [done|]. congruence.
    + intros b0 [->|Hin]%elem_of_cons; [|by apply H3].
      destruct Hm1 as [[-> (x & Hx & Hsame)]|[-> _]].
      * exists x. split; [by apply H2|done].
      * exists b. split; [|by split]. apply H2, lookup_insert.
Qed.

(** What a successful resolution went through. *)
Lemma resolve_ok (w : world) (a : args) (cfg : config) : resolve_config w a = Ok cfg →
  ∃ p1 s1 p s binds m, apply_env w a (load_partial w) = Ok (p1, s1) ∧ apply_cli w a (p1, s1) = Ok (p, s) ∧
    w_resolve_storage w (p_storage p) = Ok (c_storage cfg) ∧
    c_level cfg = default INFO (p_level p) ∧ c_name cfg = default "sandbox" (p_name p) ∧
    c_net cfg = default NetNone (p_net p) ∧ c_ignored cfg = default false (p_ignored p) ∧
    c_ndb cfg = default false (p_ndb p) ∧
    collect (parse_bind_mount (w_fs w) (w_cwd w) (rbind (w_ugh w) (λ u, Ok (ugh_home u))))
      ((if c_ndb cfg then [] else w_default_binds w (c_net cfg)) ++ default [] (p_bind p)
               ++ (mask_arg_file <$> default [] (p_mask p))) = Ok binds ∧
    dedupe ∅ binds = Ok m ∧ c_binds cfg = w_order w (map_to_list m).*2 ∧ name_ok (c_name cfg) = true.
Proof.
  unfold resolve_config. intros H.
  destruct (w_ugh w) as [u|] eqn:Eu; cbn [rbind] in H; [|done].
  destruct (load_partial w) as [p0 s0].
  match goal with H : (if ?b then _ else _) = _ |- _ => destruct b eqn:Ec; [done|] end.
  destruct (apply_env w a (p0, s0)) as [[p1 s1]|] eqn:E1; cbn [rbind] in H; [|done].
  destruct (apply_cli w a (p1, s1)) as [[p s]|] eqn:E2; cbn [rbind] in H; [|done].
  destruct (w_resolve_storage w (p_storage p)) as [st|] eqn:E3; cbn [rbind] in H; [|done].
  match type of H with rbind (collect ?g ?l) _ = _ => destruct (collect g l) as [binds|] eqn:E4; cbn [rbind] in H; [|done] end.
  destruct (dedupe ∅ binds) as [m|] eqn:E5; cbn [rbind] in H; [|done].
  match goal with H : (if ?b then _ else _) = _ |- _ => destruct b eqn:En; [|done] end.
  injection H as <-. exists p1, s1, p, s, binds, m.
  cbn [c_level c_name c_storage c_net c_ignored c_binds c_ndb rbind]. split_and!; done.
Qed.

Theorem C34_precedence (w : world) (a : args) (cfg : config) :
  (∀ l : list bind_mount, w_order w l ≡ₚ l) →
  resolve_config w a = Ok cfg → precedence w a cfg.
Proof.
  intros Hord H. apply resolve_ok in H as (p1 & s1 & p & s & binds & m & E1 & E2 & Hst & Hlv & Hnm & Hnet & Hig & Hnd & Hcol & Hded & Hb & _).
  destruct (load_partial w) as [p0 s0] eqn:E0.
  pose proof (load_scalars (if decide (w_files w = []) then ∅ else {[ "config_files" := "config" ]}) (w_files w)) as H0.
  cbv zeta in H0. fold (load_partial w) in H0. rewrite E0 in H0. cbn [fst] in H0.
  destruct H0 as (F1 & F2 & F3 & F4 & F5 & F6 & F7 & F8).
  apply apply_env_ok in E1 as (V1 & V2 & V3 & V4 & V5 & V6 & V7 & V8).
  apply apply_cli_ok in E2 as (K1 & K2 & K3 & K4 & K5 & K6 & K7 & K8).
  assert (Hall : ∀ arg, arg ∈ (if c_ndb cfg then [] else w_default_binds w (c_net cfg)) ++ default [] (p_bind p)
               ++ (mask_arg_file <$> default [] (p_mask p)) ↔ requested w a (c_ndb cfg) (c_net cfg) arg).
  { intros arg. rewrite !elem_of_app, K8, V8, F7, elem_of_list_fmap. rewrite K7, V7. setoid_rewrite F8. split.
    - intros [Hd|[[[(src & c & k & ? & ? & ?)|[(v & y & ? & ? & ? & ?)|(v & y & ? & ? & ? & ?)]]|[(l & ? & ?)|(l & x & ? & ? & ?)]]|(x & -> & src & c & k & ? & ? & ?)]].
      + destruct (c_ndb cfg) eqn:En; [by apply elem_of_nil in Hd|]. by constructor.
      + by eapply Q_file.
      + by eapply Q_env.
      + by eapply Q_env_mask.
      + by eapply Q_cli.
      + by eapply Q_cli_mask.
      + by eapply Q_file_mask.
    - intros [Hn Hd|src c k|src c k x ? ? ? ->|v y|v y|l|l x]; [|eauto 15..].
      left. by rewrite Hn. }
  pose proof (collect_ok _ _ _ Hcol) as HF.
  destruct (dedupe_ok binds ∅ m) as (D1 & _ & D3); [by intros t b ?%lookup_empty_Some|done|].
  assert (Hin : ∀ b, b ∈ c_binds cfg ↔ ∃ t, m !! t = Some b).
  { intros b. rewrite Hb, Hord, elem_of_list_fmap. split.
    - intros ([t b'] & -> & Ht%elem_of_map_to_list). by exists t.
    - intros [t Ht%elem_of_map_to_list]. by exists (t, b). }
  split.
  - by rewrite Hlv, K1, V1, F1, <-!first_set_over.
  - by rewrite Hnet, K4, V4, F4, <-!first_set_over.
  - by rewrite Hig, K5, V5, F5, <-!first_set_over.
  - by rewrite Hnd, K6, V6, F6, <-!first_set_over.
  - by rewrite <-Hst, K3, V3, F3, <-!first_set_over.
  - intros Hn Hl. rewrite Hnm, K2, V2, F2, Hn, Hl by done. cbn [orb]. by rewrite <-!first_set_over.
  - intros arg Harg. apply Hall in Harg. apply elem_of_list_lookup in Harg as [i Hi].
    destruct (Forall2_lookup_l _ _ _ _ _ HF Hi) as (b & Hbi & Hp).
    destruct (D3 b) as (b' & Hb' & Hsame); [by eapply elem_of_list_lookup_2|].
    exists b, b'. split; [done|]. split; [apply Hin; eauto|done].
  - intros b Hbin. apply Hin in Hbin as [t Ht]. destruct (D1 t b Ht) as [_ [Hm|Hm]]; [by apply lookup_empty_Some in Hm|].
    apply elem_of_list_lookup in Hm as [i Hi].
    destruct (Forall2_lookup_r _ _ _ _ _ HF Hi) as (arg & Harg & Hp).
    pose proof Hp as Hp'. apply C35_bind_argument in Hp' as [Ha _]. rewrite Ha.
    split; [|done]. apply Hall. by eapply elem_of_list_lookup_2.
Qed.
Print Assumptions C34_precedence.

(** Where files are looked for: the system's, the user's, then those of the directories from the
    home directory (or the root, if the working directory is not below it) down to the working
    directory; the more specific the later, hence (C34_precedence) the stronger. *)
Definition project_dirs (home cwd : path) : list path :=
  let k := if decide (home `prefix_of` cwd) then length home else 0 in
  (λ n, take n cwd) <$> seq k (S (length cwd - k)).

Lemma parent_take (p : path) (n : nat) : S n ≤ length p → parent (take (S n) p) = Some (take n p).
Proof.
  intros H. destruct (lookup_lt_is_Some_2 p n ltac:(lia)) as [x Hx].
  rewrite (take_S_r _ _ _ Hx). unfold parent. rewrite removelast_last.
  by destruct (take n p).
Qed.

Lemma config_dirs_rev (home cwd : path) (n : nat) : n ≤ length cwd →
  rev (config_dirs n home (take n cwd)) =
  (let k := if decide (home `prefix_of` take n cwd) then length home else 0 in
   (λ i, take i cwd) <$> seq k (S (n - k))).
Proof.
  induction n as [|n IH]; intros Hn; cbn [config_dirs].
  - rewrite take_0. destruct (decide ([] = home)) as [<-|Hne].
    + rewrite decide_True by done. done.
    + rewrite decide_False; [done|]. intros ?%prefix_nil_inv. by subst.
  - destruct (decide (take (S n) cwd = home)) as [<-|Hne].
    + rewrite decide_True by done. cbv zeta. rewrite take_length, Nat.min_l by lia.
      replace (S (S n - S n)) with 1 by lia. done.
    + rewrite parent_take by done. cbn [rev]. rewrite IH by lia. cbv zeta.
      destruct (lookup_lt_is_Some_2 cwd n ltac:(lia)) as [x Hx].
      assert (Hpre : home `prefix_of` take n cwd ↔ home `prefix_of` take (S n) cwd).
      { rewrite (take_S_r _ _ _ Hx) in Hne |- *. split.
        - intros. by apply prefix_app_r.
        - intros [k Hk]. destruct k as [|y k _] using rev_ind.
          + rewrite app_nil_r in Hk. done.
          + rewrite app_assoc in Hk. apply app_inj_tail in Hk as [-> _]. by exists k. }
      set (k := if decide (home `prefix_of` take n cwd) then length home else 0).
      assert (Hk : (if decide (home `prefix_of` take (S n) cwd) then length home else 0) = k).
      { subst k. destruct (decide (home `prefix_of` take n cwd)) as [H1|H1], (decide (home `prefix_of` take (S n) cwd)) as [H2|H2]; tauto. }
      rewrite Hk. assert (k ≤ n).
      { subst k. destruct (decide _) as [Hp|]; [|lia]. apply prefix_length in Hp. rewrite take_length in Hp. lia. }
      replace (S (S n - k)) with (S (n - k) + 1) by lia. rewrite seq_app, fmap_app.
      replace (k + S (n - k)) with (S n) by lia. done.
Qed.

Lemma rev_flat_map2 (A : Type) (g h : A → path) (l : list A) :
  rev (flat_map (λ d, [g d; h d]) l) = flat_map (λ d, [h d; g d]) (rev l).
Proof.
  induction l as [|d l IH]; [done|]. cbn [flat_map rev]. rewrite rev_app_distr, IH, flat_map_app. done.
Qed.

Theorem C34_search_order (home cwd : path) :
  config_search home cwd =
  [["etc"; "sandbox.toml"]; ["etc"; "sandbox.conf"];
   home ++ [".config"; "sandbox"; "config.toml"]; home ++ [".config"; "sandbox"; "config.conf"]]
  ++ flat_map (λ d, [d ++ [".sandbox.toml"]; d ++ [".sandbox.conf"]]) (project_dirs home cwd).
Proof.
  unfold config_search. rewrite rev_app_distr, rev_flat_map2. cbn [rev app].
  pose proof (config_dirs_rev home cwd (length cwd) ltac:(lia)) as H. rewrite firstn_all in H. rewrite H. done.
Qed.
Print Assumptions C34_search_order.
Example C34_search_nonvacuous :
  project_dirs ["home"; "u"] ["home"; "u"; "p"; "q"] = [["home"; "u"]; ["home"; "u"; "p"]; ["home"; "u"; "p"; "q"]] ∧
  project_dirs ["home"; "u"] ["opt"; "p"] = [[]; ["opt"]; ["opt"; "p"]].
Proof. vm_compute. done. Qed.

(** ** C36 *)

(** Where a bind mount is placed: get_or_create.rs:848-906 strips a leading slash from the target and
    joins the rest to the root. *)
Definition place (b : bind_mount) : path := pb_comps (b_target b).

Lemma cfg_binds (w : world) (a : args) (cfg : config) :
  (∀ l : list bind_mount, w_order w l ≡ₚ l) → resolve_config w a = Ok cfg →
  NoDup (b_target <$> c_binds cfg).
Proof.
  intros Hord H. apply resolve_ok in H as (p1 & s1 & p & s & binds & m & E1 & E2 & Hst & Hlv & Hnm & Hnet & Hig & Hnd & Hcol & Hded & Hb & _).
  destruct (dedupe_ok binds ∅ m) as (D1 & _ & D3); [by intros t b ?%lookup_empty_Some|done|].
  rewrite Hb, Hord. clear -D1.
  assert (b_target <$> (map_to_list m).*2 = (map_to_list m).*1) as ->; [|apply NoDup_fst_map_to_list].
  rewrite <-list_fmap_compose. apply list_fmap_ext. intros i [t b] Hi%elem_of_list_lookup_2%elem_of_map_to_list.
  by destruct (D1 t b Hi).
Qed.

(** At every place inside the sandbox at most one bind mount. *)
Definition C36_full : Prop :=
  ∀ (w : world) (a : args) (cfg : config) (i j : nat) (b b' : bind_mount),
    (∀ l : list bind_mount, w_order w l ≡ₚ l) → resolve_config w a = Ok cfg →
    c_binds cfg !! i = Some b → c_binds cfg !! j = Some b' → place b = place b' → i = j.

(** No two bind mounts have the same target, so no two with absolute targets (every target that
    exists is made absolute) are placed at the same path; and two requests for the same target
    that differ in source or options make the whole configuration fail, with no default bind being
    silently replaced. *)
Theorem C36_targets_unique_partial (w : world) (a : args) (cfg : config) (i j : nat) (b b' : bind_mount) :
  (∀ l : list bind_mount, w_order w l ≡ₚ l) → resolve_config w a = Ok cfg →
  c_binds cfg !! i = Some b → c_binds cfg !! j = Some b' →
  b_target b = b_target b' ∨ (pb_abs (b_target b) = true ∧ pb_abs (b_target b') = true ∧ place b = place b') →
  i = j.
Proof.
  intros Hord H Hi Hj Ht. apply cfg_binds in H; [|done].
  assert (b_target b = b_target b') as Heq.
  { destruct Ht as [?|(Ha & Hb & Hp)]; [done|]. unfold place in Hp.
    destruct (b_target b), (b_target b'); cbn in *; congruence. }
  eapply (NoDup_lookup (b_target <$> c_binds cfg)); [done| |].
  - rewrite list_lookup_fmap, Hi. done.
  - rewrite list_lookup_fmap, Hj. cbn. by rewrite Heq.
Qed.

Theorem C36_conflicts_rejected (w : world) (a : args) (cfg : config) (x y : string) (b b' : bind_mount) :
  (∀ l : list bind_mount, w_order w l ≡ₚ l) → resolve_config w a = Ok cfg →
  requested w a (c_ndb cfg) (c_net cfg) x → requested w a (c_ndb cfg) (c_net cfg) y →
  bind_spec (w_fs w) (w_cwd w) (rbind (w_ugh w) (λ u, Ok (ugh_home u))) x b →
  bind_spec (w_fs w) (w_cwd w) (rbind (w_ugh w) (λ u, Ok (ugh_home u))) y b' →
  b_target b = b_target b' → same_mount b b'.
Proof.
  intros Hord H Hx Hy Hb Hb' Ht. pose proof (C34_precedence w a cfg Hord H) as P.
  destruct (pr_binds _ _ _ P x Hx) as (b1 & c1 & E1 & I1 & S1).
  destruct (pr_binds _ _ _ P y Hy) as (b2 & c2 & E2 & I2 & S2).
  apply C35_bind_argument in Hb, Hb'. rewrite Hb in E1. injection E1 as <-. rewrite Hb' in E2. injection E2 as <-.
  assert (c1 = c2) as <-.
  { apply elem_of_list_lookup in I1 as [i Hi], I2 as [j Hj].
    assert (i = j) as <-; [|congruence].
    eapply C36_targets_unique_partial; [done..|]. left.
    destruct S1 as (_ & <- & _), S2 as (_ & <- & _). done. }
  destruct S1 as (? & ? & ?), S2 as (? & ? & ?). split; [congruence|]. split; [done|]. congruence.
Qed.
Print Assumptions C36_targets_unique_partial.
Print Assumptions C36_conflicts_rejected.

(** A world for the examples: files with settings, environment, two directories. *)
Definition cfg_fs : fs := list_to_map
  [([], dir0); (["a"], dir0); (["b"], dir0); (["lnk"], mk (KLink "/b") 511 0); (["home"], dir0); (["home"; "u"], dir0)].
Definition cfg_world (files : list (string * partial)) (env : environ) : world :=
  World env files cfg_fs ["home"; "u"] (Ok (Ugh 1000 1000 "/home/u")) (λ _, ["/a"]) (λ l, l)
    (λ o, Ok (default "/home/u/.sandboxes" o)) (λ _, Ok "ephemeral_1") (λ _, Ok "last").
Definition no_args : args := Args None None false false None None None None false false.

Theorem C36_refuted : ¬ C36_full.
Proof.
  intros H.
  set (a := Args None None false false None None (Some ["/a:n"; "/b:/n"]) None true false).
  specialize (H (cfg_world [] ∅) a).
  assert (∃ cfg, resolve_config (cfg_world [] ∅) a = Ok cfg ∧
    (place <$> c_binds cfg) = [["n"]; ["n"]]) as (cfg & Hc & Hp).
  { eexists. split; [vm_compute; reflexivity|vm_compute; reflexivity]. }
  destruct (c_binds cfg) as [|x [|y [|]]] eqn:E; try done. cbn in Hp. injection Hp as Hx Hy.
  specialize (H cfg 0 1 x y (λ l, reflexivity l) Hc). rewrite E in H.
  specialize (H eq_refl eq_refl). rewrite Hx, Hy in H. specialize (H eq_refl). done.
Qed.
Print Assumptions C36_refuted.

(** Non-vacuity: a resolution with values from all sources. *)
Example C34_nonvacuous :
  let w := cfg_world
    [("/etc/sandbox.toml", Partial (Some ERROR) (Some "sys") None (Some NetHost) (Some true) (Some ["/b:/x:ro"]) None None);
     ("/home/u/.sandbox.toml", Partial None (Some "proj") (Some "/st") None None None (Some ["/b"]) None)]
    ({[ "SANDBOX_LOG_LEVEL" := "Debug"; "SANDBOX_BIND" := " /lnk:/y , " ]}) in
  let a := Args None None false false None (Some NetNone) (Some ["~:/z"; "/b:/x:ro"]) None false false in
  ∃ cfg, resolve_config w a = Ok cfg ∧ c_level cfg = DEBUG ∧ c_name cfg = "proj" ∧ c_storage cfg = "/st" ∧
    c_net cfg = NetNone ∧ c_ignored cfg = true ∧ length (c_binds cfg) = 5 ∧
    BindMount (PB true ["b"]) (PB true ["y"]) ReadWrite "/lnk:/y" ∈ c_binds cfg.
Proof.
  cbv zeta. eexists. split; [vm_compute; reflexivity|]. cbn [c_level c_name c_storage c_net c_ignored c_binds].
  split_and!; try reflexivity. apply elem_of_list_In. vm_compute. tauto.
Qed.
Example C36_conflict_nonvacuous :
  ∃ e, resolve_config (cfg_world [] ∅) (Args None None false false None None (Some ["/b:/a"]) None false false) = Err e.
Proof. eexists. vm_compute. reflexivity. Qed.
Example C35_nonvacuous :
  parse_bind_mount cfg_fs ["home"; "u"] (Ok "/home/u") "/lnk::ro" =
    Ok (BindMount (PB true ["b"]) (PB true ["b"]) ReadOnly "/lnk::ro") ∧
  parse_bind_mount cfg_fs ["home"; "u"] (Ok "/home/u") "~:rel/x" =
    Ok (BindMount (PB true ["home"; "u"]) (PB false ["rel"; "x"]) ReadWrite "~:rel/x").
Proof. split; vm_compute; reflexivity. Qed.

(** ** C56: a bad value is reported, not a panic *)
Definition panics {A : Type} (r : res A) : Prop := ∃ what, r = Err (EPanic what).
(** The parts of the world that are modelled elsewhere do not panic. *)
Record calm (w : world) : Prop := {
  calm_ugh : ¬ panics (w_ugh w);
  calm_storage : ∀ o, ¬ panics (w_resolve_storage w o);
  calm_new : ∀ o, ¬ panics (w_new_name w o);
  calm_last : ∀ o, ¬ panics (w_last_name w o);
}.
Definition C56_full : Prop := ∀ (w : world) (a : args), calm w → ¬ panics (resolve_config w a).
Theorem C56_refuted : ¬ C56_full.
Proof.
  intros H. apply (H (cfg_world [] {[ "SANDBOX_NO_DEFAULT_BINDS" := "yes" ]}) no_args).
  - split; intros; intros [x Hx]; discriminate.
  - eexists. vm_compute. reflexivity.
Qed.

Lemma panics_rbind {A B : Type} (r : res A) (k : A → res B) :
  panics (rbind r k) → panics r ∨ ∃ x, r = Ok x ∧ panics (k x).
Proof. destruct r as [x|e]; cbn [rbind]; intros H; [right; eauto|left]. destruct H as [wh [= ->]]. by exists wh. Qed.
Lemma panics_ok {A : Type} (x : A) : ¬ panics (Ok x).
Proof. intros [? ?]. done. Qed.
Lemma panics_app {A : Type} (m : string) : ¬ panics (@Err A (EApp m)).
Proof. intros [? ?]. done. Qed.

Lemma panics_err {A : Type} (e : err) : panics (@Err A e) → ∃ m, e = EPanic m.
Proof. intros [m [= ->]]. by exists m. Qed.

Lemma walk_no_panic (n : nat) (f : fs) (fol : bool) (cur : path) (todo : list string) :
  ¬ panics (walk n f fol cur todo).
Proof.
  revert cur todo. induction n as [|n IHn]; intros cur todo; revert cur;
    (induction todo as [|c todo IH]; intros cur; [rewrite walk_nil; apply panics_ok|]); rewrite walk_cons;
    (destruct (_ || _); [apply IH|]); (destruct (String.eqb c ".."); [apply IH|]);
    (destruct (f !! cur) as [d|]; [|by intros [? ?]]); (destruct (is_kdir (n_kind d)); [|by intros [? ?]]);
    (destruct (f !! (cur ++ [c])) as [nd|]; [|destruct todo; by intros [? ?]]);
    (destruct (n_kind nd); try apply IH); destruct todo, fol; (apply IHn || by intros [? ?]).
Qed.

Lemma tilde_no_panic (home : res string) (s : string) : ¬ panics home → ¬ panics (expand_tilde home s).
Proof.
  intros Hh H. unfold expand_tilde in H. destruct (starts_with "~" s); [|by apply panics_ok in H].
  apply panics_rbind in H as [H|(h & _ & H)]; [done|].
  destruct (String.eqb s "~"); [by apply panics_ok in H|]. destruct (strip_prefix "~/" s); by apply panics_ok in H.
Qed.
Lemma canonicalize_no_panic (f : fs) (cwd : path) (s : string) : ¬ panics (canonicalize f cwd s).
Proof.
  unfold canonicalize. destruct (String.eqb s ""); [by intros [? ?]|]. intros H.
  apply panics_rbind in H as [H|(q & _ & H)]; [by apply walk_no_panic in H|].
  destruct (f !! q); by destruct H.
Qed.
Lemma parse_bind_no_panic (f : fs) (cwd : path) (home : res string) (arg : string) :
  ¬ panics home → ¬ panics (parse_bind_mount f cwd home arg).
Proof.
  intros Hh H. unfold parse_bind_mount in H.
  apply panics_rbind in H as [H|(s & _ & H)]; [by apply tilde_no_panic in H|].
  apply panics_rbind in H as [H|(t & _ & H)].
  { destruct (splitn3 arg !! 1) as [t|]; [|by apply panics_ok in H].
    destruct (String.eqb t ""); [by apply panics_ok in H|by apply tilde_no_panic in H]. }
  apply panics_rbind in H as [H|(cs & _ & H)]; [by apply canonicalize_no_panic in H|].
  apply panics_rbind in H as [H|(ct & _ & H)].
  { destruct (path_exists f cwd t); [by apply canonicalize_no_panic in H|by apply panics_ok in H]. }
  apply panics_rbind in H as [H|(o & _ & H)]; [|by apply panics_ok in H].
  destruct (splitn3 arg !! 2) as [o|]; [|by apply panics_ok in H].
  unfold parse_options in H. repeat (destruct (_ : bool) in H; [by apply panics_ok in H|]).
  by apply panics_app in H.
Qed.
Lemma collect_no_panic {A B : Type} (g : A → res B) (l : list A) :
  (∀ x, ¬ panics (g x)) → ¬ panics (collect g l).
Proof.
  intros Hg. induction l as [|x l IH]; cbn [collect]; [apply panics_ok|]. intros H.
  apply panics_rbind in H as [H|(y & _ & H)]; [by apply Hg in H|].
  apply panics_rbind in H as [H|(ys & _ & H)]; [done|by apply panics_ok in H].
Qed.
Lemma dedupe_no_panic (l : list bind_mount) (m : gmap pbuf bind_mount) : ¬ panics (dedupe m l).
Proof.
  revert m. induction l as [|b l IH]; intros m; cbn [dedupe]; [apply panics_ok|]. intros H.
  apply panics_rbind in H as [H|(y & _ & H)]; [|by apply IH in H].
  unfold add_bind in H. destruct (m !! b_target b); [|by apply panics_ok in H].
  destruct (decide _); [by apply panics_ok in H|by apply panics_app in H].
Qed.

(** With SANDBOX_NO_DEFAULT_BINDS unset, "true" or "false" nothing panics here. *)
Theorem C56_no_panic_partial (w : world) (a : args) :
  calm w →
  (∀ v, w_env w !! "SANDBOX_NO_DEFAULT_BINDS" = Some v → v = "true" ∨ v = "false") →
  ¬ panics (resolve_config w a).
Proof.
  intros [Hu Hst Hnew Hlast] Hndb H. unfold resolve_config in H.
  apply panics_rbind in H as [H|(u & Hug & H)]; [done|].
  destruct (load_partial w) as [p0 s0].
  match goal with H : panics (if ?b then _ else _) |- _ => destruct b; [by apply panics_app in H|] end.
  apply panics_rbind in H as [H|([p1 s1] & _ & H)].
  { unfold apply_env in H.
    apply panics_rbind in H as [H|(lv & _ & H)].
    { destruct (w_env w !! "SANDBOX_LOG_LEVEL") as [v|]; [|by apply panics_ok in H].
      destruct (parse_level v); [by apply panics_ok in H|by apply panics_app in H]. }
    apply panics_rbind in H as [H|(nt & _ & H)].
    { destruct (nonempty_env w "SANDBOX_NET") as [v|]; [|by apply panics_ok in H].
      destruct (parse_network v); [by apply panics_ok in H|by apply panics_app in H]. }
    apply panics_rbind in H as [H|(ig & _ & H)].
    { destruct (w_env w !! "SANDBOX_IGNORED") as [v|]; [|by apply panics_ok in H].
      destruct (parse_bool v); [by apply panics_ok in H|by apply panics_app in H]. }
    apply panics_rbind in H as [H|(nd & _ & H)]; [|by apply panics_ok in H].
    destruct (w_env w !! "SANDBOX_NO_DEFAULT_BINDS") as [v|]; [|by apply panics_ok in H].
    destruct (Hndb v eq_refl) as [-> | ->]; by apply panics_ok in H. }
  apply panics_rbind in H as [H|([p s] & _ & H)].
  { unfold apply_cli in H. apply panics_rbind in H as [H|([nm s2] & _ & H)]; [|by apply panics_ok in H].
    destruct (a_new a).
    { apply panics_rbind in H as [H|(? & _ & H)]; [by apply Hnew in H|by apply panics_ok in H]. }
    destruct (a_last a); [|by apply panics_ok in H].
    apply panics_rbind in H as [H|(? & _ & H)]; [by apply Hlast in H|by apply panics_ok in H]. }
  apply panics_rbind in H as [H|(st & _ & H)]; [by apply Hst in H|].
  apply panics_rbind in H as [H|(bs & _ & H)].
  { apply collect_no_panic in H; [done|]. intros x. apply parse_bind_no_panic. rewrite Hug. apply panics_ok. }
  apply panics_rbind in H as [H|(m & _ & H)]; [by apply dedupe_no_panic in H|].
  destruct (name_ok _); [by apply panics_ok in H|by apply panics_app in H].
Qed.
Print Assumptions C56_no_panic_partial.
Print Assumptions C56_refuted.
Example C56_nonvacuous : calm (cfg_world [] {[ "SANDBOX_NO_DEFAULT_BINDS" := "false"; "SANDBOX_NET" := "wifi" ]}) ∧
  resolve_config (cfg_world [] {[ "SANDBOX_NO_DEFAULT_BINDS" := "false"; "SANDBOX_NET" := "wifi" ]}) no_args
  = Err (EApp "Invalid network type").
Proof. split; [split; intros; intros [x Hx]; discriminate|]. vm_compute. reflexivity. Qed.
