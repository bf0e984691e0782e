(** * Overlays, their mount options, the settings file, and what the sandboxed process sees.
    /repo/src/sandbox/mount_overlays.rs, /repo/src/sandbox/settings.rs, /repo/src/util/mount.rs,
    /repo/src/util/mounts.rs, /repo/src/sandbox/unmount.rs, /repo/src/sandbox/get_or_create.rs. *)
From Verif Require Export Base32 Config.

(** mount_overlays.rs:19-23 *)
Record mount_hash := MH { mh_hash : string; mh_dir : string }.
#[global] Instance mount_hash_eq_dec : EqDecision mount_hash.
Proof. solve_decision. Defined.

(** One line of /proc/mounts, decoded by getmntent(3). *)
Record mntent := Mnt { mnt_dir : string; mnt_type : string }.

(** mount_overlays.rs:16-17 *)
Definition ACCEPTABLE_MOUNT_TYPES : list string := ["xfs"; "nfs4"; "ext2"; "ext3"; "ext4"; "zfs"; "btrfs"].

(** [Path::starts_with] on strings *)
Definition path_starts_with (p base : string) : bool :=
  Bool.eqb (is_abs p) (is_abs base) && bool_decide (comps base `prefix_of` comps p).

(** mount_overlays.rs:160-196: which lines are used. [base] is the sandbox's directory. *)
Definition keep_mount (base : string) (m : mntent) : bool :=
  (String.eqb (mnt_dir m) "/" || bool_decide (mnt_type m ∈ ACCEPTABLE_MOUNT_TYPES))
  && negb (path_starts_with (mnt_dir m) base).
Definition hash_mount (m : mntent) : mount_hash := MH (b32_encode (mnt_dir m)) (mnt_dir m).
Definition by_dir (a b : mount_hash) : comparison := str_cmp (mh_dir a) (mh_dir b).

(** mount_overlays.rs:141-207 *)
Definition scan_system_mounts (base : string) (table : list mntent) : res (list mount_hash) :=
  match sort_by by_dir (hash_mount <$> filter (λ m, keep_mount base m = true) table) with
  | [] => Err (EApp "No suitable mounts found for sandbox, something is very wrong")
  | l => Ok l
  end.

(** settings.rs:7-13 *)
Record settings := Settings {
  st_version : string;
  st_mounts : list mount_hash;
  st_net : network;
  st_binds : list bind_mount;
}.

(** mount_overlays.rs:121-139. [parent] is the file settings.json in the storage directory: absent,
    unreadable/unparsable, or its contents. *)
Definition determine_mounts (base : string) (table : list mntent) (parent : option (res settings))
  : res (list mount_hash) :=
  match parent with
  | Some r => rbind r (λ s, Ok (st_mounts s))
  | None => scan_system_mounts base table
  end.

(** [PathBuf::join] of the sandbox's base directory: get_or_create.rs:43-68. *)
Definition work_base (base : string) : string := join_str base "work".
Definition upper_base (base : string) : string := join_str base "upper".
Definition overlay_base (base : string) : string := join_str base "overlay".
Definition data_dir (base : string) : string := join_str base "data".

(** mount_overlays.rs:86-91 *)
Definition overlay_options (dir upper work : string) : string :=
  "lowerdir=" +:+ dir +:+ ",upperdir=" +:+ upper +:+ ",workdir=" +:+ work +:+
  ",index=off,redirect_dir=on,metacopy=off".

(** What mount_overlays asks of the system, in order: mount_overlays.rs:26-111. *)
Inductive step :=
  | SMkdir (dir : string) (like : string)   (* util::mkdir; owner taken from [like] ("" = the user) *)
  | SOverlay (target options : string)      (* mount(2) of type overlay *)
  | SSave (file : string).                  (* settings.json *)
Definition overlay_steps (base : string) (m : mount_hash) : list step :=
  let work := join_str (work_base base) (mh_hash m) in
  let upper := join_str (upper_base base) (mh_hash m) in
  let overlay := join_str (overlay_base base) (mh_hash m) in
  [SMkdir work (mh_dir m); SMkdir upper (mh_dir m); SMkdir overlay (mh_dir m);
   SOverlay overlay (overlay_options (mh_dir m) upper work)].
(** The steps when none fails, and the mounts handed on to the new namespace (sorted again,
    mount_overlays.rs:103). *)
Definition mount_overlays (base : string) (mounts : list mount_hash) : list step * list mount_hash :=
  ([SMkdir base ""; SMkdir (data_dir base) ""] ++ flat_map (overlay_steps base) mounts
     ++ [SSave (join_str (data_dir base) "settings.json")],
   sort_by by_dir mounts).

(** util/mount.rs:88-124. Simplification: bytes above 127 are accepted (the program accepts those
    that make up alphanumeric characters; none of them is special to the kernel). *)
Definition option_char (a : ascii) : bool :=
  let n := N_of_ascii a in
  ((N.leb 48 n && N.leb n 57) || (N.leb 65 n && N.leb n 90) || (N.leb 97 n && N.leb n 122)
   || N.leb 128 n || Ascii.eqb a "_" || Ascii.eqb a "-" || Ascii.eqb a "." || Ascii.eqb a "/"
   || Ascii.eqb a "@" || Ascii.eqb a "%")%bool.
Definition check_path (s : string) : bool :=
  negb (String.eqb s "") && forallb (λ c, forallb option_char (to_bytes c)) (comps s).

(** ** The kernel's parser of overlay mount options (fs/overlayfs/params.c: ovl_next_opt,
    ovl_parse_param, ovl_unescape): options end at unescaped commas, lower directories at unescaped
    colons; a backslash quotes the next character. *)
Definition backslash : ascii := "\"%char.
Definition push (l : string) (parts : list string) : list string :=
  match parts with [] => [l] | w :: ws => (l +:+ w) :: ws end.
Fixpoint split_esc (c : ascii) (s : string) : list string :=
  match s with
  | EmptyString => [""]
  | String a s' =>
      if Ascii.eqb a backslash then
        match s' with
        | EmptyString => [String a ""]
        | String b s'' => push (String a (String b "")) (split_esc c s'')
        end
      else if Ascii.eqb a c then "" :: split_esc c s'
      else push (String a "") (split_esc c s')
  end.
Fixpoint unescape (s : string) : string :=
  match s with
  | EmptyString => ""
  | String a s' =>
      if Ascii.eqb a backslash then
        match s' with EmptyString => "" | String b s'' => String b (unescape s'') end
      else String a (unescape s')
  end.
Record kopts := KOpts {
  k_lower : list string; k_upper : option string; k_work : option string; k_flags : list string }.
Definition known_flags : list string := ["index=off"; "redirect_dir=on"; "metacopy=off"].
Definition apply_opt (acc : option kopts) (o : string) : option kopts :=
  match acc with
  | None => None
  | Some k =>
      if String.eqb o "" then Some k else
      match split_once "=" o with
      | Some ("lowerdir", v) => Some (KOpts (unescape <$> split_esc ":" v) (k_upper k) (k_work k) (k_flags k))
      | Some ("upperdir", v) => Some (KOpts (k_lower k) (Some (unescape v)) (k_work k) (k_flags k))
      | Some ("workdir", v) => Some (KOpts (k_lower k) (k_upper k) (Some (unescape v)) (k_flags k))
      | _ => if bool_decide (o ∈ known_flags)
             then Some (KOpts (k_lower k) (k_upper k) (k_work k) (k_flags k ++ [o])) else None
      end
  end.
Definition kernel_options (s : string) : option kopts :=
  foldl apply_opt (Some (KOpts [] None None [])) (split_esc "," s).

(** ** Unmounting: util/mounts.rs:5-43, unmount.rs:8-41 *)
(** The mount points in the order they are unmounted (failures are only logged). *)
Definition str_desc (a b : string) : comparison := str_cmp b a.
Definition get_mounts (base : string) (table : list mntent) : list string :=
  sort_by str_desc (filter (λ d, path_starts_with d base = true) (mnt_dir <$> table)).
Definition unmount_order (base : string) (table : list mntent) : list string :=
  sort_by str_desc (get_mounts base table).

(** ** Settings: settings.rs *)
(** settings.rs:16-24 *)
Definition from_config (version : string) (net : network) (binds : list bind_mount)
    (mounts : list mount_hash) : settings := Settings version mounts net binds.
(** settings.rs:26-38 *)
Definition by_argument (a b : bind_mount) : comparison := str_cmp (b_argument a) (b_argument b).
Definition user_bind_mounts (s : settings) : list bind_mount :=
  sort_by by_argument (filter (λ b, b_argument b ≠ "data") (st_binds s)).
(** settings.rs:65-153 *)
Definition validate_against_config (old cur : settings) : res unit :=
  if negb (bool_decide (st_net old = st_net cur)) then Err (EApp "Network configuration has changed")
  else if negb (bool_decide (st_mounts old = st_mounts cur)) then Err (EApp "Mount configuration has changed")
  else if negb (bool_decide (user_bind_mounts old = user_bind_mounts cur))
  then Err (EApp "Bind mount configuration has changed")
  else Ok tt.

(** get_or_create.rs:136-141, 187-192: the implicit bind. *)
Definition data_bind (base : string) : bind_mount :=
  BindMount (to_pbuf (data_dir base)) (to_pbuf (data_dir base)) ReadWrite "data".

(** get_or_create.rs:106-212, the decision. [running]: a sandbox of that name runs; [stored]: its
    settings file (absent / broken / contents). *)
Inductive decision := Reuse | Create (s : settings) (steps : list step) (mounts : list mount_hash).
Definition get_or_create (base storage : string) (net : network) (binds : list bind_mount)
    (running : bool) (stored : option (res settings)) (table : list mntent) (parent : option (res settings))
  : res decision :=
  if running then
    match stored with
    | None => Ok Reuse
    | Some r =>
        rbind r (λ old,
        rbind (determine_mounts base table parent) (λ mounts,
        rbind (validate_against_config old (from_config "" net (binds ++ [data_bind base]) mounts)) (λ _,
        Ok Reuse)))
    end
  else if check_path storage then
    rbind (determine_mounts base table parent) (λ mounts,
    let '(steps, ms) := mount_overlays base mounts in
    Ok (Create (from_config "" net (binds ++ [data_bind base]) ms) steps ms))
  else Err (EApp "Storage path contains invalid character").

(** ** The mounts of the new namespace: get_or_create.rs:311-995 *)

(** What is mounted. *)
Inductive backing :=
  | BOverlay (m : mount_hash)         (* the overlay of a host mount *)
  | BPseudo (what : string)           (* a fresh tmpfs, proc, sysfs, devpts, ... *)
  | BMask (file : bool)               (* tmpfs or /dev/null of a masked path *)
  | BHost (src : pbuf) (ro : bool)    (* bind of a host object *)
  | BSelf (p : path).                 (* re-bind of the sandbox's own path, read-only *)
Record mnt := M { m_at : path; m_what : backing }.

(** Mounts in the order they are made: the last one whose mount point is a prefix of [p] is what is
    seen at [p]. *)
Definition seen (ms : list mnt) (p : path) : option backing :=
  m_what <$> last (filter (λ m, m_at m `prefix_of` p) ms).

(** get_or_create.rs:443-580 and 848-906: how a configured bind mount is realised. [isdir] tells
    whether the masked target is a directory or missing; /run/systemd is forced read-only
    (get_or_create.rs:491-493). *)
Definition realise (isdir : pbuf → bool) (b : bind_mount) : mnt :=
  M (pb_comps (b_target b))
    (match b_options b with
     | Mask => BMask (negb (isdir (b_target b)))
     | o => BHost (b_source b)
              (bool_decide (o = ReadOnly) || bool_decide (b_source b = PB true ["run"; "systemd"]))
     end).

(** get_or_create.rs:663-846: /proc, /dev, /sys and what is masked or made read-only there
    ([cpus]: the entries of /sys/devices/system/cpu with a thermal_throttle; [there]: which paths exist). *)
Definition system_mounts (there : path → bool) (cpus : list string) : list mnt :=
  [M ["proc"] (BPseudo "proc"); M ["dev"; "pts"] (BPseudo "devpts"); M ["dev"; "mqueue"] (BPseudo "mqueue");
   M ["dev"; "shm"] (BPseudo "tmpfs"); M ["sys"] (BPseudo "sysfs"); M ["sys"; "fs"; "cgroup"] (BPseudo "cgroup2")]
  ++ ((λ p, M p (BMask true)) <$> filter (λ p, there p = true)
        ([["proc"; "asound"]; ["proc"; "acpi"]; ["proc"; "interrupts"]; ["proc"; "kcore"]; ["proc"; "keys"];
          ["proc"; "latency_stats"]; ["proc"; "timer_list"]; ["proc"; "timer_stats"]; ["proc"; "sched_debug"];
          ["proc"; "scsi"]; ["sys"; "firmware"]; ["sys"; "devices"; "virtual"; "powercap"]]
         ++ ((λ c, ["sys"; "devices"; "system"; "cpu"; c; "thermal_throttle"]) <$> cpus)))
  ++ ((λ p, M p (BSelf p)) <$> filter (λ p, there p = true)
        [["proc"; "bus"]; ["proc"; "fs"]; ["proc"; "irq"]; ["proc"; "sys"]; ["proc"; "sysrq-trigger"]]).

(** get_or_create.rs:600-642: the other overlays, in the order handed over. *)
Definition overlay_mounts (mounts : list mount_hash) : list mnt :=
  (λ m, M (comps (mh_dir m)) (BOverlay m)) <$> filter (λ m, mh_dir m ≠ "/") mounts.

(** All mounts that remain: the root overlay, /dev and /run (get_or_create.rs:389-410), the overlays,
    the system mounts, the configured binds (their staging mounts and the old root are unmounted
    again, 644-651, 908-944). *)
Definition namespace (isdir : pbuf → bool) (there : path → bool) (cpus : list string)
    (mounts : list mount_hash) (binds : list bind_mount) : list mnt :=
  [M [] (BOverlay (MH (b32_encode "/") "/")); M ["dev"] (BPseudo "tmpfs"); M ["run"] (BPseudo "tmpfs")]
  ++ overlay_mounts mounts ++ system_mounts there cpus ++ (realise isdir <$> binds).

(** ** Starting: get_or_create.rs:218-307 *)
(** The child goes through the steps of setup (get_or_create.rs:311-995); each succeeds, fails with an
    error, or ends the process on the spot (a signal such as the OOM killer's, or a panic). *)
Inductive outcome := StepOk | StepErr | StepDies.
(** What the child wrote to the pipe when it is done: byte 0 after the last step (946-949), byte 1 after
    an error (299-301); nothing if the process ended. *)
Fixpoint child_writes (steps : list outcome) : option N :=
  match steps with
  | [] => Some 0%N
  | StepOk :: l => child_writes l
  | StepErr :: _ => Some 1%N
  | StepDies :: _ => None
  end.
(** get_or_create.rs:262-281: the buffer is zero initially; read(2) at end of file leaves it so and
    returns 0, which is not looked at. *)
Definition start_sandbox (steps : list outcome) : res unit :=
  let buffer := default 0%N (child_writes steps) in
  if N.eqb buffer 1 then Err (EApp "Failed to setup sandbox") else Ok tt.
