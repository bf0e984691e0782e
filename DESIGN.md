# Formal model of anoek/sandbox in Rocq (Coq 8.16.1)

This file is the plan and the trusted-base statement. The list of properties is
`properties.jsonl`; which theorem proves what is in `MANIFEST.json` (generated by
`tools/manifest.py` from `tools/claims.py`); wrong programs tried against the theorems are in
`seeded/LOG.jsonl`.

## Approach

* The code is read as text and re-expressed, function by function, as total Gallina functions.
  Every definition cites the file and lines it models.
* The host filesystem **and** the sandbox storage live in one map `gmap path node`
  (`theories/FS.v`): a path is the list of its components from `/`; a node has a kind (regular
  file with content, directory, symlink with target, device, fifo, socket), permission bits,
  uid, gid, device number and a map of extended attributes.  Path lookup follows symlinks as the
  kernel does (limit 40).  System calls are functions of a small state/error monad that also
  records every intermediate filesystem state, so crash-point properties quantify over that trace.
* What the program takes from outside and the theorems must hold for *every* value of is a field
  of a parameter record (`env`): the glob matcher (external crate `fast_glob`), directory listing
  order (an arbitrary permutation: `env_ok`), UUIDs, the working directory, the umask.
* Specifications are kept apart from the code model: `OverlaySpec.v` (merged view of an overlay),
  `RedirectSpec.v` (where overlayfs takes the content of a renamed directory from), the first
  sections of `Rename.v` (simultaneous moves) and of the `Props_*.v` files.
* Where a listed property is false of the faithful model the file contains the full statement as
  `Definition Cxx_full : Prop`, a theorem `Cxx_refuted : ~ Cxx_full` with a concrete witness state
  computed through the model, and a positive theorem (suffix `_partial`) that holds of every state
  outside the exception. Beside each theorem an `Example Cxx_nonvacuous` exhibits a concrete
  non-trivial state that meets its hypotheses.

## Files

| File | Content |
|---|---|
| `Base`, `PathFacts`, `Utf8`, `Base32` | strings, paths, stable sort, UTF-8, Base32 of `data-encoding` |
| `FS`, `FSFacts`, `SysFacts`, `RmdirFacts` | filesystem model, what each system call does, recursive removal |
| `FileDetails`, `Ignore`, `Changes`, `ChangeEntries` | src/sandbox/changes/*: change detection, ignore rules, selection by pattern |
| `Accept`, `Reject`, `Status` | src/actions/{accept,reject,status,diff}.rs |
| `OverlaySpec`, `OverlayOk`, `RedirectSpec` | specification of overlayfs and the states the theorems range over |
| `ChangesFacts`, `ChangesSpec`, `Unique`, `Order`, `Plan` | the change list of a sandbox, characterised |
| `AcceptFacts`, `AcceptMain`, `AcceptRun`, `AcceptAll`, `Success`, `Refuse`, `MergedView` | accept: invariants, success, the resulting view |
| `Rename` | accept of renamed directories |
| `IgnoreFacts`, `Checkers` | ignore rules; executable checks used in non-vacuity examples |
| `Logger`, `Creds`, `Config`, `Mounts`, `Lifecycle`, `Lock`, `Storage`, `Exec` | models of logger, credentials, configuration, overlay mounts and the sandbox's view, life cycle commands, lock, choice of the storage directory, running a command |
| `Props_*` | the property theorems |

## Per property plan

| Property | Model | Proof |
|---|---|---|
| C01, C51, C52 | `Changes.v`, `Accept.v`, spec `OverlaySpec.v` | invariants over the sorted remove / set lists; redirect-free uppers, exclusions shown necessary by `_refuted`; C01 also for renamed directories (spec `RenamedOk.v`, `RedirectSpec.v`; proof `RenamedView.v`, `RenamedLost.v`, `RenamedList.v`, `RenamedAll.v`, `RenamedFound.v`, `RenamedDoable.v`) |
| C02, C03, C04, C05, C06, C07 | `Accept.v` with trace of states | frame lemmas per system call, lifted through the monad; induction over the change list; with renamed directories `Props_RenamedCrash.v` (every state of every phase of `RenamePlan.v`); `Props_General.v`: invariants that need no condition on the sandbox (C04: contents are complete, `Props_Atomic.v`: a relation between consecutive states kept by every call; C02: the same with `Props_Frame.v`, every step's changes have a selected change as reason; C06: monotonicity of lookups under removal), and what is false in general (C05, C06, C52) |
| C08, C09, C10 | `Reject.v` | frame + invariant over the sorted list; refuted where whiteouts are unreachable |
| C11, C12, C13, C14 | `Changes.v` vs `OverlaySpec.v` | membership characterisation of the change list; C12 for every sandbox with UTF-8 names in `Props_General.v` |
| C15, C16, C17 | `ChangeEntries.v`, `Status.v` | list/permutation reasoning; C15 refuted for renamed directories |
| C18, C19, C20 | `ChangeEntries.v`, glob matcher is a parameter | list and string reasoning; refuted in `/` and for names that are not UTF-8 |
| C21 | comparators + stable sort (`Base.v`, `Order.v`) | total preorder laws; sortedness implies children first |
| C22 | `Base32.v` encode/decode as in data-encoding | bit-list induction |
| C23, C24 | `FileDetails.v` with the kernel's `lgetxattr` contract (called with the lossily converted path), 64 bit device numbers | case analysis, N bit arithmetic; refuted for names that are not UTF-8 |
| C25 | `Changes.v:get_source` vs `RedirectSpec.v:kernel_source` | induction on the path; refuted for relative redirects below a renamed directory |
| C26 | `Changes.v:find_mount_point` | induction on the path |
| C27 | `Accept.v` rename phases, spec in `Rename.v` | invariant for the move-aside loop (deepest first) and the placing loop (parents first); refuted for occupied destinations and for attributes; mixed lists in `RenamePlan.v` / `Props_RenameSets.v`, lists read from the storage in `Props_RenameView.v` |
| C28, C29, C30, C31 | `Ignore.v` | induction on strings, rule lists, cache histories |
| C32, C45 | `Accept.v:rmdir_recursive`, `Lifecycle.v` | induction on the tree depth |
| C33, C39, C57, C58, C59 | `Mounts.v` | string prefix order; parser of mount options; mount table semantics |
| C34, C35, C36, C38, C56 | `Config.v`, `Mounts.v` (settings) | case analysis, induction over lists |
| C37 | `Mounts.v` mount table semantics | refuted by order; proved for non-nested targets |
| C40, C41, C46, C47 | `Lifecycle.v` | string reasoning; refuted for `..` |
| C42, C62 | `Lock.v` transition system of processes, inodes and flock | invariant over all schedules; refuted when delete unlinks the lock |
| C43, C44, C60, C61 | `Lifecycle.v`, `Mounts.v` | set reasoning over process tables, frame over the storage directory |
| C48, C49 | `Creds.v` | Linux setresuid rules, case analysis |
| C50 | `Logger.v` | list induction |
| C64, C65, C66 | `Exec.v`: namespaces, chroot, credentials, wait loop, environment | case analysis of the call sequence; invariant of the wait loop over all interleavings; refuted for reused process numbers, SIGSEGV, non-UTF-8 variables |
| C67, C68, C69 | `Storage.v` | path lookup lemmas, induction over missing directories; refuted for `..`, unwritable parents, stacked mounts |
| C70 | `Accept.v` | `Props_Loss.v`: invariant of the run plus overlay lookup lemmas; refuted by a renamed directory whose old parent is deleted; `Props_RenamedCrash.v` for renamed directories |
| C71, C72 | `Output.v`: events (lines, JSON fields, the question), main's end of a run | `Props_Delete.v`: case analysis of the delete command over `Props_List.v`'s storage invariants; refuted for panics, failed deletions, --json and suspended processes |
| C73 | `Output.v:count_upper_entries` | `Props_Counts.v`: induction over the walk; refuted by an emptied directory |
| C74 | `Output.v:status_cmd`, `to_json`, `Status.v:display` | `Props_Status.v`: shape of the output; injectivity of path printing; refuted for names with line breaks or bad UTF-8 |
| C75 | `Output.v:config_cmd`, `derive` | `Props_ConfigCmd.v`: uniqueness of the device boundary (C26); refuted by a bind mount |
| C76 | `Output.v:main_run`, `dispatch` | `Props_Host.v`: silence of the looking commands; C08/C61/C72 for the others; refuted by `--name ..` |
| C77 | `Accept.v` split after the listing (`accept_from`) | `Props_Concurrent.v`: triple with the invariant "same kinds everywhere"; refuted by a replaced directory |
| C78 | `Setup.v`: directories and files created while the namespace is set up, with copy-up | `Props_Setup.v`: invariant "same tree, mounts so far" over both loops, parents-first order of the overlays; refuted by two configurations |
| C79 | `Setup.v` as for C78 | `Props_Setup.v`: same invariant; refuted by nested bind mounts |
| C80 | `Ignore.v` | `Props_IgnoreText.v`: rules of a path from the text of the only ignore line, glob library characterised on names without special characters; refuted by `build/` |
| C81 | `Isolation.v`: places on the host a write in the sandbox reaches, from the mounts and the option strings as the kernel parses them | `Props_Isolation.v`: last upperdir wins; stack argument for `..` in storage names; induction on the history of writes; refuted by a name with a comma |
| C82 | `Masking.v`: the host object seen at each path of the sandbox: mounts and merged view, proved equal to `renamed_lookup` | `Props_Masked.v`: induction on the path with an invariant on the merged lower directory; refuted by a rename and a restart |
| C83 | `ConfigFiles.v`: choice and reading of configuration files, default binds, with credentials | `Props_ConfigFiles.v`: noninterference: lookups do not depend on texts, and what passes the access check is readable under its canonical path; refuted by --config |
| C84 | `ConfigFiles.v`: `default_binds`, `configure` | `Props_ConfigFiles.v`: from C34, C35 and the syntax of arguments without colon; with C81 for the writes; refuted by a home with a colon |
| C85 | `Creds.v`, `Config.v` (bind arguments) | `Props_Rights.v`: a resolved source contains no links, so reaching it means search rights on every directory above; refuted by a source in a closed directory |
| C86 | accept over `Creds.v`; the user's own operations | `Props_Rights.v`: from the frame theorem C02 at every moment, temporary files being siblings of destinations; refuted by a hand-made storage directory |
| C87 | `Lifecycle.v`: stop, stop --all, unmount | `Props_Stop.v`: counting argument over the mount table (stacked and nested mounts), composed with the triples of `Props_Lifecycle.v`; refuted by a process whose command line is not UTF-8 |
| C88 | `DiffText.v`: lookup of diff in PATH, start with the credentials of the process | `Props_Diff.v`: invariant over `user_step` (entries on the way to a sealed directory do not change); refuted by a PATH of the caller's |
| C89 | `DiffText.v`, `Status.v`: the two files of each diff | `Props_Diff.v`: induction over the loop; refuted by a deleted secret and by a staged link to /etc/shadow |
| C90 | `DiffText.v`: line splitting, replacement | `Props_Diff.v`: the replacement is the identity on marked lines that do not contain the path; diff(1) is a parameter with a contract |
| C91 | `Start.v`: get_or_create with mount_overlays and start_sandbox, every call can fail | `Props_Start.v`: readiness is kept by every step, composed with C87; refuted by a failing step of the new process |
| C92 | `Start.v`, `Lifecycle.v` | `Props_Start.v`: invariant over histories (nothing mounted, or each overlay once and the recorded process alive); refuted by start, death of the process, start |
| C93 | `Start.v`: sethostname, report of the new process | `Props_Start.v`: induction over the steps; refuted by a name of 65 letters |
| C94 | `Inherit.v`: dispositions through the start of a Rust program, fork and execve | `Props_Inherit.v`: case analysis on the signal; refuted by SIGPIPE |
| C95 | `Inherit.v`: process table of the pid namespace with fork, exit, reparenting, wait | `Props_Inherit.v`: invariant on parents over all histories; refuted by a command that leaves a process behind |
| C96 | `Inherit.v`: descriptor table with close-on-exec flags through lock, pipe, pidfd and execve | `Props_Inherit.v`: lookup by lookup; opening then closing a fresh descriptor is the identity |
| C97 | `Inherit.v`: the new process of a start and what it closes | `Props_Inherit.v`: characterisation of what stays open; refuted by a file on descriptor 3 |
| C98, C99 | `Changes.v`, `Accept.v` | `Props_Doable.v`: refuted with a witness (listing computed, accept run); success theorem (`Success.v`, `AcceptAll.v`) and uniqueness (`Unique.v`) under the conditions that exclude nested removals |
| C100 | accept, interrupted at any state of its run, run again | refuted twice by concrete runs; positive part: the interrupted state is again a sandbox that can be accepted (kinds and devices of everything an accept installs are part of the run invariant) with the same view, then C01 |
| C101, C102 | `Start.v` (first start on a host tree), `OverlaySpec.v`, `Creds.v` | `Props_Fresh.v`: invariant over the steps that make the layers (only directories appear, upper layers empty, owner and mode of their roots), then induction on the overlay lookup; refuted by a closed home directory on a file system of its own |
| C103 | `Start.v`, `Storage.v`, `Lock.v` (every system call of a start on the host) | `Props_Confined.v`: invariant over every emitted state (nothing outside changed, own places are no links), kept by mkdir, chown, the two writes, mount, clone; refuted by a planted link |
| C104 | `Net.v` (histories of get_or_create, exec and the settings file; decisions from `Mounts.v`, namespaces from `Exec.v`) | `Props_Net.v`: invariant over histories (the file describes the live process; whoever was told of a process asked for its network); refuted by removing settings.json |
| C105 | `Net.v` (the same histories, with the bind mounts and the overlays of each start) | `Props_Net.v`: the same invariant; refuted by removing settings.json and by an argument that is the word data |
| C106 | `Output.v` [config_cmd] with any list of keys | `Props_ConfigKeys.v`: induction on the keys; refuted by a second key that is unknown, and by a key with dashes |
| C63 | `Accept.v`, spec `OverlaySpec.v` | final state of accept (AcceptRun) and a case analysis of the overlay lookup; refuted for selections that are not closed |
| C53, C54, C55 | `Accept.v`, `Status.v`, `Ignore.v` | refuted with witnesses; restricted versions proved |

No property is declared inexpressible.  What a model cannot exhibit is listed in the trusted base.

## Trusted base

* Coq's kernel (including `vm_compute`, used for witnesses and examples).
* `Print Assumptions` is printed under every property theorem. Nearly all are "Closed under the
  global context". The build as a whole sees seven names of the standard library's
  `Coq.ssr.ssrunder.Under_rel` (opaque module type ascription of the `under` tactic, pulled in by
  stdpp); no theorem of ours uses anything else. No axioms are added.
* The reading of the Rust source (each definition cites its lines).
* The model of Linux: path lookup, unlink/rmdir/mkdir/rename/symlink/chown/chmod/xattr contracts
  (`FS.v`), setresuid/setresgid and permission checks (`Creds.v`), `flock` (lock on the inode, owned by
  the open file description, inherited over clone: `Lock.v`), pid namespaces, kill, umount
  (`Lifecycle.v`), pidfd_open/setns/fork/chroot, waitpid and signal dispositions (`Exec.v`), the mount table and overlay option parser (`Mounts.v`), where writes on a mount end up (`Isolation.v`), the overlayfs layer format
  (`OverlaySpec.v`, `RedirectSpec.v`).
* External crates are modelled by their documented contract: `walkdir` (pre-order, links not followed,
  arbitrary sibling order), `data-encoding` Base32, `serde_json` (settings are records; only the
  round trip is used), `fast_glob` (arbitrary function), `uuid` (arbitrary function of the call site,
  with a freshness hypothesis where needed).

## Modelled and not modelled

| Source | Model | Left out |
|---|---|---|
| actions/accept.rs | `Accept.v` | log output |
| actions/reject.rs | `Reject.v` | log output |
| actions/status.rs, diff.rs | `Status.v`, `DiffText.v` (the program that runs, the files it opens, the text) | colours; diff(1) itself is a parameter |
| actions/list.rs, stop.rs, delete.rs | `Lifecycle.v`, printing and the question in `Output.v` | colours; the answer is trimmed of ASCII white space only |
| actions/config.rs, sync.rs | `Output.v` | |
| config/cli.rs, structs.rs, impls.rs, resolve.rs | `Config.v`, `ConfigFiles.v`, names in `Lifecycle.v`, `Storage.v` | clap's own parser, the TOML parser |
| sandbox/changes/*.rs | `Changes.v`, `ChangeEntries.v`, `FileDetails.v`, `Ignore.v`; count_upper_entries and to_json in `Output.v` | |
| sandbox/get_or_create.rs | `Mounts.v` (mount sequence, settings check, pipe protocol), `Setup.v` (what is created on the way), `Start.v` (what a start does to the host), `Inherit.v` (descriptors of the new process, who reaps), `Net.v` (which isolation a command gets, over histories), `Lifecycle.v`, `Lock.v` | /dev, /proc and /sys details, network set-up |
| sandbox/mount_overlays.rs, settings.rs, unmount.rs | `Mounts.v`, `Lifecycle.v` | |
| sandbox/stop.rs, delete.rs, exists.rs | `Lifecycle.v` | |
| sandbox/exec.rs | `Exec.v`, `Inherit.v` (dispositions and descriptors), credentials in `Creds.v` | coverage hooks, what the executed program does |
| util/access.rs, drop_privileges.rs, resolve_uid_gid_home.rs | `Creds.v` | |
| util/expand_tilde.rs, find_mount_point.rs, lock_sandbox.rs, get_running_sandbox_pid.rs, mount.rs, mounts.rs | `Config.v`, `Changes.v`, `Lock.v`, `Lifecycle.v`, `Mounts.v` | |
| util/mkdir.rs, clone3.rs | `Storage.v`, flags in `Exec.v` | |
| util/output.rs, sync_and_drop_caches.rs | `Output.v` (the page cache itself is not modelled: dropping it succeeds or fails) | colours, the order of JSON fields |
| logger.rs, main.rs | `Logger.v`, dispatch order | |

Not modelled: timestamps, hard links, sparse files, concurrent modification of the host by others while
accept runs, permission failures of accept (it runs as root), disk-full and I/O errors, terminal
colours and column layout, shell completion, the text of help and log messages, the kernel's
page cache (a crash is a stop between system calls), exec of the user's program.
