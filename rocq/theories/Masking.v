(** * Which host object is seen at a path of the sandbox.

    The mounts are those of [Mounts.namespace] (get_or_create.rs:311-995), the merged view of an overlay is
    that of [RedirectSpec.renamed_lookup]; here the path on the host of what is seen is kept as well.
    Not modelled: hard links (a file is known by its path). *)
From Verif Require Export Isolation RedirectSpec.

(** Like [renamed_lookup], but the answer is where on the host the object is (in the upper or in the lower
    layer). *)
Fixpoint shows (f : fs) (root : path) (u l : option path) (s : path) : option path :=
  match s with
  | [] => match u with Some up => Some up | None => l end
  | c :: s' =>
      let un := match u with Some up => f !! (up ++ [c]) | None => None end in
      let ln := match l with Some lo => f !! (lo ++ [c]) | None => None end in
      let as_dir (p : path) := match f !! p with Some k => if is_kdir (n_kind k) then Some p else None | None => None end in
      match un with
      | Some n =>
          if whiteout n then None
          else if is_kdir (n_kind n) then
            shows f root (match u with Some up => Some (up ++ [c]) | None => None end)
              (if opaque n then None else
                 match redirect n with
                 | Some r => if is_abs r then as_dir (root ++ comps r)
                             else match l with Some lo => as_dir (lo ++ comps r) | None => None end
                 | None => match l with Some lo => as_dir (lo ++ [c]) | None => None end
                 end) s'
          else match s', u with [], Some up => Some (up ++ [c]) | _, _ => None end
      | None =>
          match ln with
          | None => None
          | Some k =>
              if is_kdir (n_kind k) then
                shows f root None (match l with Some lo => Some (lo ++ [c]) | None => None end) s'
              else match s', l with [], Some lo => Some (lo ++ [c]) | _, _ => None end
          end
      end
  end.

(** It is the same view. *)
Lemma shows_lookup (f : fs) (root : path) (s : path) : ∀ u l : option path,
  renamed_lookup f root u l s = match shows f root u l s with Some p => f !! p | None => None end.
Proof.
  induction s as [|c s IH]; intros u l; cbn [renamed_lookup shows]; [by destruct u|].
  destruct u as [up|], l as [lo|]; cbv zeta beta iota;
    try destruct (f !! (up ++ [c])) as [n|] eqn:Eu; try destruct (whiteout n); try destruct (is_kdir (n_kind n)) eqn:?; try done;
    try (apply IH); try (destruct s; [symmetry; exact Eu|done]);
    destruct (f !! (lo ++ [c])) as [k|] eqn:El; try done; destruct (is_kdir (n_kind k)); try (apply IH);
    (destruct s; [symmetry; exact El|done]).
Qed.

(** mount_overlays.rs:56-66: the upper directory of a host mount. *)
Definition upper_of (base : string) (mh : mount_hash) : path := comps (upper_base base) ++ [mh_hash mh].

(** The host object seen at [q]. *)
Definition host_object (f : fs) (base : string) (ns : list mnt) (q : path) : option path :=
  match mount_of ns q with
  | None => None
  | Some m =>
      match path_strip (m_at m) q with
      | None => None
      | Some s =>
          match m_what m with
          | BOverlay mh => shows f (comps (mh_dir mh)) (Some (upper_of base mh)) (Some (comps (mh_dir mh))) s
          | BHost src _ => if decide (is_Some (f !! (pb_comps src ++ s))) then Some (pb_comps src ++ s) else None
          | BPseudo _ | BMask _ | BSelf _ => None
          end
      end
  end.
