(** * Credentials and permission checks.

    Models /repo/src/util/resolve_uid_gid_home.rs, /repo/src/util/drop_privileges.rs and
    /repo/src/util/access.rs over the Linux rules for credentials (credentials(7), setuid(2),
    setresuid(2)) and for path permissions (path_resolution(7)).
    Simplifications: CAP_SETUID, CAP_SETGID, CAP_DAC_OVERRIDE and CAP_DAC_READ_SEARCH are held
    exactly when the effective uid is 0 (no file capabilities, no user namespaces); the
    filesystem ids follow the effective ids; no ACLs; [exec] of set-uid programs is not one of
    the calls considered. *)
From Verif Require Export FS.

Record cred := Cred {
  ruid : N; euid : N; suid : N;
  rgid : N; egid : N; sgid : N;
  groups : list N;
}.
#[global] Instance cred_eq_dec : EqDecision cred.
Proof. solve_decision. Defined.

Definition privileged (c : cred) : bool := N.eqb (euid c) 0.
Definition EPERM : err := EApp "EPERM".
Definition EACCES : err := EApp "EACCES".

Definition one_of (x : N) (l : list N) : bool := existsb (N.eqb x) l.
Definition set_uids (c : cred) (r e s : N) : cred := Cred r e s (rgid c) (egid c) (sgid c) (groups c).
Definition set_gids (c : cred) (r e s : N) : cred := Cred (ruid c) (euid c) (suid c) r e s (groups c).

(** setuid(2): all three ids when privileged, else only the effective one, to the real or saved. *)
Definition sys_setuid (u : N) (c : cred) : res cred :=
  if privileged c then Ok (set_uids c u u u)
  else if one_of u [ruid c; suid c] then Ok (set_uids c (ruid c) u (suid c)) else Err EPERM.
Definition sys_setgid (g : N) (c : cred) : res cred :=
  if privileged c then Ok (set_gids c g g g)
  else if one_of g [rgid c; sgid c] then Ok (set_gids c (rgid c) g (sgid c)) else Err EPERM.

(** setresuid(2), [None] is -1: an unprivileged process may set each id to one of the current
    three. *)
Definition sys_setresuid (r e s : option N) (c : cred) : res cred :=
  let ok x := match x with
              | None => true
              | Some u => privileged c || one_of u [ruid c; euid c; suid c]
              end in
  if ok r && ok e && ok s
  then Ok (set_uids c (default (ruid c) r) (default (euid c) e) (default (suid c) s)) else Err EPERM.
Definition sys_setresgid (r e s : option N) (c : cred) : res cred :=
  let ok x := match x with
              | None => true
              | Some g => privileged c || one_of g [rgid c; egid c; sgid c]
              end in
  if ok r && ok e && ok s
  then Ok (set_gids c (default (rgid c) r) (default (egid c) e) (default (sgid c) s)) else Err EPERM.
Definition sys_setgroups (gs : list N) (c : cred) : res cred :=
  if privileged c then Ok (Cred (ruid c) (euid c) (suid c) (rgid c) (egid c) (sgid c) gs) else Err EPERM.

(** seteuid(3), setegid(3) *)
Definition sys_seteuid (u : N) : cred → res cred := sys_setresuid None (Some u) None.
Definition sys_setegid (g : N) : cred → res cred := sys_setresgid None (Some g) None.

(** ** resolve_uid_gid_home *)

(** Environment variables ([std::env::var]; a value that is not valid UTF-8 counts as unset). *)
Notation environ := (gmap string string).

(** [str::parse::<u32>]: an optional plus sign, at least one digit, no overflow. *)
Definition digit (a : ascii) : option N :=
  let n := N_of_ascii a in if (N.leb 48 n && N.leb n 57)%bool then Some (n - 48)%N else None.
Fixpoint parse_digits (acc : N) (s : string) : option N :=
  match s with
  | EmptyString => Some acc
  | String a s' => match digit a with
                   | Some d => let v := (acc * 10 + d)%N in
                               if N.ltb v 4294967296 then parse_digits v s' else None
                   | None => None
                   end
  end.
Definition parse_u32 (s : string) : option N :=
  let s' := match s with String "+"%char s' => s' | _ => s end in
  match s' with EmptyString => None | _ => parse_digits 0 s' end.

Record ugh := Ugh { ugh_uid : N; ugh_gid : N; ugh_home : string }.

(** resolve_uid_gid_home.rs:14-73 *)
Definition is_setuid (c : cred) : bool := negb (N.eqb (ruid c) (euid c)) && N.eqb (euid c) 0.
Definition sudo_id (v : option string) (real : N) : res N :=
  match v with
  | Some s => match parse_u32 s with Some n => Ok n | None => Err (EApp "Failed to parse") end
  | None => Ok real
  end.
Definition resolve_uid_gid_home (env : environ) (c : cred) (f : fs) : res ugh :=
  rbind
    (if is_setuid c then
       Ok (ruid c, rgid c, default "/tmp" (env !! "HOME"))
     else
       let home := match env !! "SUDO_HOME" with Some h => h | None => default "/tmp" (env !! "HOME") end in
       rbind (sudo_id (env !! "SUDO_UID") (ruid c)) (λ uid,
       rbind (sudo_id (env !! "SUDO_GID") (rgid c)) (λ gid, Ok (uid, gid, home))))
    (λ '(uid, gid, home),
       if negb (is_abs home) then Err (EApp "Home directory is not absolute")
       else if negb (exists_ f (comps home)) then Err (EApp "Home directory does not exist")
       else Ok (Ugh uid gid home)).

(** drop_privileges.rs:4-8 *)
Definition drop_privileges (uid gid : N) (c : cred) : res cred :=
  rbind (sys_setgid gid c) (sys_setuid uid).

(** ** Permission checks *)

(** The three permission bits wanted: read 4, write 2, execute/search 1. *)
Definition has_bits (perm want : N) : bool := N.eqb (N.land perm want) want.
(** Kernel: owner class, else group class, else others; root may do anything except execute a
    file without any execute bit. *)
Definition may (c : cred) (n : node) (want : N) : bool :=
  if privileged c then
    is_kdir (n_kind n) || negb (N.testbit want 0) || negb (N.eqb (N.land (n_perm n) 73) 0)
  else if N.eqb (euid c) (n_uid n) then has_bits (N.shiftr (n_perm n) 6) want
  else if N.eqb (egid c) (n_gid n) || one_of (n_gid n) (groups c)
    then has_bits (N.shiftr (n_perm n) 3) want
  else has_bits (n_perm n) want.

(** Path walk with search permission required of every directory looked into (as [walk] of FS.v,
    following all links). *)
Fixpoint pwalk (n : nat) (f : fs) (c : cred) (cur : path) (todo : list string) {struct n} : res path :=
  (fix go (cur : path) (todo : list string) {struct todo} : res path :=
     match todo with
     | [] => Ok cur
     | x :: rest =>
         match f !! cur with
         | None => Err ENOENT
         | Some d =>
             if negb (is_kdir (n_kind d)) then Err ENOTDIR
             else if negb (may c d 1) then Err EACCES
             else if String.eqb x ".." then go (removelast cur) rest
             else let q := cur ++ [x] in
                  match f !! q with
                  | None => Err ENOENT
                  | Some nd =>
                      match n_kind nd with
                      | KLink t =>
                          match n with
                          | O => Err ELOOP
                          | S n' => pwalk n' f c (if is_abs t then [] else cur) (comps t ++ rest)
                          end
                      | _ => go q rest
                      end
                  end
         end
     end) cur todo.

(** eaccess(3): the check uses the effective ids and the supplementary groups. *)
Definition eaccess (f : fs) (c : cred) (p : path) (want : N) : res unit :=
  rbind (pwalk max_links f c [] p) (λ q,
    match f !! q with
    | None => Err ENOENT
    | Some n => if may c n want then Ok tt else Err EACCES
    end).

(** access.rs:6-39.  Returns the credentials the process is left with and the result; a failing
    [?] leaves the credentials of that moment. *)
Definition can_access (f : fs) (p : path) (uid gid want : N) (c : cred) : cred * res unit :=
  match sys_setegid gid c with
  | Err e => (c, Err e)
  | Ok c1 =>
      match sys_seteuid uid c1 with
      | Err e => (c1, Err e)
      | Ok c2 =>
          let r := eaccess f c2 p want in
          match sys_seteuid (euid c) c2 with
          | Err e => (c2, Err e)
          | Ok c3 =>
              match sys_setegid (egid c) c3 with
              | Err e => (c3, Err e)
              | Ok c4 => (c4, r)
              end
          end
      end
  end.

(** access.rs:42-59: the loop over the ancestors, nearest first; [exists] is evaluated with the
    rights of the running process (root, so it sees everything). *)
Fixpoint nearest_existing (f : fs) (ancestors : list path) : option path :=
  match ancestors with
  | [] => None
  | a :: l => if exists_ f a then Some a else nearest_existing f l
  end.
(** The proper ancestors of a path, nearest first. *)
Fixpoint ancestors_of (n : nat) (p : path) : list path :=
  match n with
  | O => []
  | S n' => match parent p with None => [] | Some q => q :: ancestors_of n' q end
  end.
Definition can_mkdir (f : fs) (p : path) (uid gid : N) (c : cred) : cred * res unit :=
  match nearest_existing f (ancestors_of (length p) p) with
  | None => (c, Err (EPanic "path has no parent"))
  | Some a => can_access f a uid gid 2 c
  end.
