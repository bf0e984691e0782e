(** * C53: extended attributes after an accept. *)
From Verif Require Export Props_Accept.

(** The attributes of an object that are not overlayfs's own. *)
Definition own_attrs (n : node) : gmap string string :=
  filter (λ kv : string * string, starts_with "trusted.overlay." kv.1 = false) (n_xattr n).

(** The directory at [p] stays: it is there before and its removal is not among the changes. *)
Definition dir_stays (f : fs) (sel : list change) (p : path) (old : node) : Prop :=
  f !! p = Some old ∧ ∀ c, c ∈ sel → c_op c = ORemove → c_dest c ≠ p.

Lemma remove_at (p : path) (l : list change) : (∃ c, c ∈ l ∧ c_op c = ORemove ∧ c_dest c = p) ∨
  ∀ c, c ∈ l → c_op c = ORemove → c_dest c ≠ p.
Proof.
  induction l as [|c l IH]; [right; intros c Hc; by apply elem_of_nil in Hc|].
  destruct IH as [(c' & H1 & H2 & H3)|IH]; [left; exists c'; split; [by right|done]|].
  destruct (decide (c_dest c = p)) as [E|E].
  - destruct (c_op c) as [t| | |] eqn:Eo.
    2: { left. exists c. split; [by left|]. done. }
    all: right; intros c' Hc' Hs; apply elem_of_cons in Hc' as [-> |Hc']; [congruence|by apply IH].
  - right. intros c' Hc' Hs. apply elem_of_cons in Hc' as [-> |Hc']; [done|by apply IH].
Qed.

(** What happens to the attributes, exactly: a directory that stays keeps its own, whatever is put in place
    otherwise (files, links, new directories) has none. *)
Theorem C53_attributes_after : ∀ (e : env) (f : fs) (ub : path) (ms : list path) (inc : bool) (pats : list string) (sel : list change),
  sandbox_ok f ub ms → env_ok e → fresh_uuids e f → selected e f ub inc pats = Ok sel →
  let o := accept e ub inc pats f in is_ok (o_res o) = true →
  ∀ (c : change) (t : set_type), c ∈ sel → c_op c = OSet t →
  ∃ (d : details) (staged host : node), c_staged c = Some d ∧ f !! d_path d = Some staged ∧ o_fs o !! c_dest c = Some host ∧
    (∀ old, is_kdir (n_kind staged) = true → dir_stays f sel (c_dest c) old → n_xattr host = n_xattr old) ∧
    ((is_kdir (n_kind staged) = false ∨ ¬ ∃ old, dir_stays f sel (c_dest c) old) → n_xattr host = ∅).
Proof.
  intros e f ub ms inc pats sel Hok He Hfu Hsel o Hoks c t Hc Ho.
  destruct (selected_plan f ub ms Hok e Hfu inc pats sel He Hsel) as [Hplan Hl].
  destruct (set_of f ub ms c (Hl c Hc) ltac:(by exists t)) as (m & s & n & Hm & Hs & _ & _ & Hd & Ec).
  assert (c_staged c = Some (details_of (upper_dir ub m ++ s) n)) as Est by (by rewrite Ec).
  destruct (final_attrs e f ub ms inc pats sel Hok He Hfu Hsel c n Hoks Hc ltac:(by exists t)) as (h & Hh & A1 & A2).
  { rewrite Est. intros st [= <-]. apply Hs. }
  exists (details_of (upper_dir ub m ++ s) n), n, h. split; [done|]. split; [apply Hs|]. split; [done|].
  assert ((∀ c', c' ∈ sel → c_op c' = ORemove → c_dest c' ≠ c_dest c) → ¬ removed sel (c_dest c)) as Hnr.
  { intros Hno (c' & Hc' & Hr). apply (Hno c' Hc' (proj1 Hr)).
    symmetry. apply (touches_dest e f ub ms inc pats sel Hok He Hfu Hsel c' _ Hc'). by left. }
  split.
  - intros old Hk [Hold Hno]. specialize (A2 (Hnr Hno)). unfold attrs_kept in A2. by rewrite Hold, Hk in A2.
  - intros [Hk|Hno].
    + destruct (remove_at (c_dest c) sel) as [(c' & Hc' & Ho' & E)|Hn].
      * apply A1. exists c'. split; [done|]. rewrite <-E.
        destruct (dest_touched e f ub ms inc pats sel Hok He Hfu Hsel c' Hc') as [?|[[t' Ht'] _]]; [by rewrite Ho'|done|congruence].
      * specialize (A2 (Hnr Hn)). unfold attrs_kept in A2. rewrite A2, Hk. by destruct (f !! c_dest c).
    + destruct (remove_at (c_dest c) sel) as [(c' & Hc' & Ho' & E)|Hn].
      * apply A1. exists c'. split; [done|]. rewrite <-E.
        destruct (dest_touched e f ub ms inc pats sel Hok He Hfu Hsel c' Hc') as [?|[[t' Ht'] _]]; [by rewrite Ho'|done|congruence].
      * specialize (A2 (Hnr Hn)). unfold attrs_kept in A2.
        destruct (f !! c_dest c) as [old|] eqn:E; [|done]. destruct Hno. by exists old.
Qed.
Print Assumptions C53_attributes_after.

(** So attributes are carried over where there is nothing to carry: the staged object has none and replaces
    nothing that stays, or it is a directory that stays and its attributes were not changed in the sandbox. *)
Theorem C53_carried_partial : ∀ (e : env) (f : fs) (ub : path) (ms : list path) (inc : bool) (pats : list string) (sel : list change),
  sandbox_ok f ub ms → env_ok e → fresh_uuids e f → selected e f ub inc pats = Ok sel →
  let o := accept e ub inc pats f in is_ok (o_res o) = true →
  ∀ (c : change) (t : set_type) (d : details) (staged : node),
  c ∈ sel → c_op c = OSet t → c_staged c = Some d → f !! d_path d = Some staged →
  (own_attrs staged = ∅ ∧ (is_kdir (n_kind staged) = true → ∀ old, ¬ dir_stays f sel (c_dest c) old)) ∨
  (∃ old, is_kdir (n_kind staged) = true ∧ dir_stays f sel (c_dest c) old ∧ own_attrs old = own_attrs staged) →
  ∃ host, o_fs o !! c_dest c = Some host ∧ own_attrs host = own_attrs staged.
Proof.
  intros e f ub ms inc pats sel Hok He Hfu Hsel o Hoks c t d staged Hc Ho Hd Hst H.
  destruct (C53_attributes_after e f ub ms inc pats sel Hok He Hfu Hsel Hoks c t Hc Ho)
    as (d' & st' & host & Hd' & Hst' & Hh & H1 & H2).
  assert (d' = d) as -> by congruence. assert (st' = staged) as -> by congruence.
  exists host. split; [done|]. destruct H as [[Hs Hn]|(old & Hk & Hstay & E)].
  - rewrite Hs. unfold own_attrs. rewrite H2; [apply map_filter_empty|].
    destruct (is_kdir (n_kind staged)); [right|by left]. intros [old Hold]. by apply (Hn eq_refl old).
  - unfold own_attrs. by rewrite (H1 old Hk Hstay).
Qed.
Print Assumptions C53_carried_partial.

(** A directory with an attribute stays while a file in it is replaced; a file without attributes is new. *)
Definition attr_dir : node := Node KDir 493 0 0 1 {[ "user.note" := "mine" ]}.
Definition attr_fs : fs := list_to_map
  [ ([], dir0); (["d"], attr_dir); (["d"; "x"], mk (KFile "old") 420 0); (["sbx"], dir0); (["sbx"; "up"], dir0); (["sbx"; "up"; "F4"], dir0);
    (["sbx"; "up"; "F4"; "d"], attr_dir); (["sbx"; "up"; "F4"; "d"; "x"], mk (KFile "new") 420 0) ].
Example C53_nonvacuous :
  sandbox_ok attr_fs demo_ub [[]] ∧ fresh_uuids demo_env attr_fs ∧
  (∃ sel, selected demo_env attr_fs demo_ub true ["/"] = Ok sel ∧ length sel = 2 ∧
     dir_stays attr_fs sel ["d"] attr_dir) ∧
  o_fs (accept demo_env demo_ub true ["/"] attr_fs) !! ["d"] = Some attr_dir ∧
  o_fs (accept demo_env demo_ub true ["/"] attr_fs) !! ["d"; "x"] = Some (mk (KFile "new") 420 0).
Proof.
  split; [apply sandbox_okb_spec; vm_compute; reflexivity|].
  split; [apply (fresh_suffixb_spec _ _ "uuid"); [done|]; vm_compute; reflexivity|].
  split; [|split; vm_compute; reflexivity].
  eexists. split; [vm_compute; reflexivity|]. split; [reflexivity|]. split; [vm_compute; reflexivity|].
  intros c Hc Ho. repeat (apply elem_of_cons in Hc as [-> |Hc]; [cbn in Ho; discriminate|]). by apply elem_of_nil in Hc.
Qed.
