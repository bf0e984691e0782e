(** * Base32 names of the per-mount directories.

    Models [data_encoding::BASE32_NOPAD.encode] as used by
    /repo/src/sandbox/mount_overlays.rs:182-186 and [BASE32_NOPAD_NOCASE.decode] as used by
    /repo/src/sandbox/changes/changes.rs:229-237 and 298-318 (RFC 4648 alphabet, most significant
    bit first, no padding; decoding translates lower case to upper case, rejects foreign symbols,
    impossible lengths and non-zero trailing bits). *)
From Verif Require Export Base.

Definition byte_bits (a : ascii) : list bool :=
  match a with Ascii b0 b1 b2 b3 b4 b5 b6 b7 => [b7; b6; b5; b4; b3; b2; b1; b0] end.

Definition bits_byte (l : list bool) : option ascii :=
  match l with
  | [b7; b6; b5; b4; b3; b2; b1; b0] => Some (Ascii b0 b1 b2 b3 b4 b5 b6 b7)
  | _ => None
  end.

(** The 32 symbols. *)
Definition alphabet : list ascii := to_bytes "ABCDEFGHIJKLMNOPQRSTUVWXYZ234567".

Definition bits_val (l : list bool) : nat :=
  foldl (λ acc (b : bool), 2 * acc + (if b then 1 else 0)) 0 l.

(** Symbol of five bits (most significant first). *)
Definition sym_of (l : list bool) : ascii := nth (bits_val l) alphabet "="%char.

(** All 5-bit groups in numeric order. *)
Fixpoint all_bits (n : nat) : list (list bool) :=
  match n with
  | O => [[]]
  | S n' => (cons false <$> all_bits n') ++ (cons true <$> all_bits n')
  end.

(** ASCII upper-casing: the NOCASE translation. *)
Definition upcase (c : ascii) : ascii :=
  let n := nat_of_ascii c in
  if (97 <=? n) && (n <=? 122) then ascii_of_nat (n - 32) else c.

(** Five bits of a symbol. *)
Definition bits_of_sym (c : ascii) : option (list bool) :=
  snd <$> list_find (λ l, sym_of l = upcase c) (all_bits 5).

(** Groups of five bits, the last one padded with zero bits. *)
Fixpoint chunk5 (l : list bool) : list (list bool) :=
  match l with
  | [] => []
  | a :: b :: c :: d :: e :: r => [a; b; c; d; e] :: chunk5 r
  | [a] => [[a; false; false; false; false]]
  | [a; b] => [[a; b; false; false; false]]
  | [a; b; c] => [[a; b; c; false; false]]
  | [a; b; c; d] => [[a; b; c; d; false]]
  end.

Definition b32_encode (s : string) : string :=
  of_bytes (sym_of <$> chunk5 (mjoin (byte_bits <$> to_bytes s))).

(** Whole bytes; the remaining bits (fewer than eight) are returned too. *)
Fixpoint chunk8 (l : list bool) : list ascii * list bool :=
  match l with
  | a :: b :: c :: d :: e :: f :: g :: h :: r =>
      let '(bs, rest) := chunk8 r in (Ascii h g f e d c b a :: bs, rest)
  | r => ([], r)
  end.

Definition b32_decode (s : string) : option string :=
  match mapM bits_of_sym (to_bytes s) with
  | None => None                                  (* symbol outside the alphabet *)
  | Some groups =>
      let '(bs, rest) := chunk8 (mjoin groups) in
      if (length rest <? 5) && forallb negb rest  (* length and trailing bits check *)
      then Some (of_bytes bs) else None
  end.

(** ** Facts *)

Lemma all_bits_5 (l : list bool) : length l = 5 → l ∈ all_bits 5.
Proof.
  intros H. do 6 (destruct l as [|? l]; simpl in H; try lia).
  repeat match goal with b : bool |- _ => destruct b end; vm_compute;
    repeat first [apply elem_of_list_here | apply elem_of_list_further].
Qed.

Lemma bits_of_sym_sym_of (l : list bool) : length l = 5 → bits_of_sym (sym_of l) = Some l.
Proof.
  intros H. do 6 (destruct l as [|? l]; simpl in H; try lia).
  repeat match goal with b : bool |- _ => destruct b end; vm_compute; reflexivity.
Qed.

Lemma sym_of_alphabet (l : list bool) : length l = 5 → sym_of l ∈ alphabet.
Proof.
  intros H. do 6 (destruct l as [|? l]; simpl in H; try lia).
  repeat match goal with b : bool |- _ => destruct b end; vm_compute;
    repeat first [apply elem_of_list_here | apply elem_of_list_further].
Qed.

(** Induction five elements at a time. *)
Lemma chunk5_spec (l : list bool) :
  (∀ g, g ∈ chunk5 l → length g = 5) ∧
  ∃ pad, mjoin (chunk5 l) = l ++ pad ∧ length pad < 5 ∧ forallb negb pad = true.
Proof.
  remember (length l) as n eqn:Hn. revert l Hn.
  induction n as [n IH] using lt_wf_ind. intros l Hn.
  destruct l as [|a [|b [|c [|d [|e r]]]]]; cbn [chunk5].
  - split; [set_solver|]. exists []. simpl. auto with lia.
  - split; [intros g Hg; apply elem_of_list_singleton in Hg as ->; done|].
    exists [false; false; false; false]. cbn. repeat split; lia.
  - split; [intros g Hg; apply elem_of_list_singleton in Hg as ->; done|].
    exists [false; false; false]. cbn. repeat split; lia.
  - split; [intros g Hg; apply elem_of_list_singleton in Hg as ->; done|].
    exists [false; false]. cbn. repeat split; lia.
  - split; [intros g Hg; apply elem_of_list_singleton in Hg as ->; done|].
    exists [false]. cbn. repeat split; lia.
  - destruct (IH (length r)) with (l := r) as [IH1 (pad & IH2 & IH3 & IH4)];
      [simpl in Hn; lia|done|].
    split.
    + intros g Hg. apply elem_of_cons in Hg as [->|Hg]; [done|by apply IH1].
    + exists pad. split; [|done]. simpl. by rewrite IH2.
Qed.

Lemma chunk8_bytes (bs : list ascii) (pad : list bool) :
  length pad < 5 → chunk8 (mjoin (byte_bits <$> bs) ++ pad) = (bs, pad).
Proof.
  intros Hp. induction bs as [|a bs IH].
  - simpl. do 5 (destruct pad as [|? pad]; simpl in Hp; try lia; try reflexivity).
  - destruct a as [b0 b1 b2 b3 b4 b5 b6 b7].
    assert (∀ l k, chunk8 ([b7; b6; b5; b4; b3; b2; b1; b0] ++ l ++ k) =
      let '(x, y) := chunk8 (l ++ k) in (Ascii b0 b1 b2 b3 b4 b5 b6 b7 :: x, y)) as Hstep
      by reflexivity.
    rewrite fmap_cons. change (mjoin (?x :: ?y)) with (x ++ mjoin y). rewrite <-app_assoc.
    unfold byte_bits at 1. rewrite Hstep, IH. done.
Qed.

Lemma mapM_bits_of_sym (gs : list (list bool)) :
  (∀ g, g ∈ gs → length g = 5) → mapM bits_of_sym (sym_of <$> gs) = Some gs.
Proof.
  induction gs as [|g gs IH]; intros H; [done|].
  cbn [fmap list_fmap mapM]. rewrite bits_of_sym_sym_of by (apply H; left).
  cbn. change (list_fmap _ _ sym_of gs) with (sym_of <$> gs).
  rewrite IH; [done|]. intros g' Hg'. apply H. by right.
Qed.

Lemma b32_roundtrip (s : string) : b32_decode (b32_encode s) = Some s.
Proof.
  unfold b32_decode, b32_encode. rewrite to_of_bytes.
  destruct (chunk5_spec (mjoin (byte_bits <$> to_bytes s))) as [Hg (pad & Hj & Hl & Hz)].
  rewrite (mapM_bits_of_sym _ Hg), Hj, chunk8_bytes by done.
  rewrite Hz. replace (length pad <? 5) with true by (symmetry; by apply Nat.ltb_lt).
  simpl. by rewrite of_to_bytes.
Qed.

Lemma b32_encode_inj (s t : string) : b32_encode s = b32_encode t → s = t.
Proof.
  intros H. pose proof (b32_roundtrip s) as Hs. rewrite H, b32_roundtrip in Hs. congruence.
Qed.

Lemma b32_encode_alphabet (s : string) c : c ∈ to_bytes (b32_encode s) → c ∈ alphabet.
Proof.
  unfold b32_encode. rewrite to_of_bytes. intros Hc.
  apply elem_of_list_fmap in Hc as (g & -> & Hg).
  apply sym_of_alphabet. by apply (proj1 (chunk5_spec _)) in Hg.
Qed.

Lemma b32_encode_nonempty (s : string) : s ≠ "" → b32_encode s ≠ "".
Proof.
  intros Hs He. apply Hs. apply b32_encode_inj. rewrite He. done.
Qed.

Lemma contains_elem (c : ascii) (s : string) :
  contains (String c "") s = true → c ∈ to_bytes s.
Proof.
  rewrite contains_spec. intros (a & b & ->). rewrite !to_bytes_app. set_solver.
Qed.

(** An encoded name is a legal directory entry name. *)
Lemma b32_encode_comp_ok (s : string) : s ≠ "" → comp_ok (b32_encode s).
Proof.
  intros Hs. split; [by apply b32_encode_nonempty|].
  assert (∀ c, c ∈ to_bytes (b32_encode s) → c ≠ "."%char ∧ c ≠ "/"%char) as H.
  { intros c Hc. apply b32_encode_alphabet in Hc.
    assert (Forall (λ c, c ≠ "."%char ∧ c ≠ "/"%char) alphabet) as HF.
    { vm_compute. repeat constructor; discriminate. }
    rewrite Forall_forall in HF. by apply HF. }
  repeat split.
  - intros He. rewrite He in H. by destruct (H "."%char); [left|].
  - intros He. rewrite He in H. by destruct (H "."%char); [left|].
  - destruct (contains "/" (b32_encode s)) eqn:E; [|done].
    apply contains_elem in E. by destruct (H _ E).
Qed.

(** Decoding is case-insensitive. *)
Lemma upcase_idemp c : upcase (upcase c) = upcase c.
Proof. destruct c as [[] [] [] [] [] [] [] []]; vm_compute; reflexivity. Qed.

Lemma bits_of_sym_upcase c : bits_of_sym (upcase c) = bits_of_sym c.
Proof. unfold bits_of_sym. by rewrite upcase_idemp. Qed.

(** Examples from the code's own documentation (accept.rs:42). *)
Example b32_root : b32_encode "/" = "F4". Proof. reflexivity. Qed.
Example b32_home : b32_encode "/home" = "F5UG63LF". Proof. reflexivity. Qed.
Example b32_bad : b32_decode "F1" = None. Proof. reflexivity. Qed.
Example b32_nocase : b32_decode "f5ug63lf" = Some "/home". Proof. reflexivity. Qed.
