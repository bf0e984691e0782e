{"id": "C01", "title": "Accept makes the host look like the sandbox", "statement": "After a successful `sandbox accept` of every change, every host path outside the sandbox storage has exactly the kind, content, link target, permission bits, owner and group that a process inside the sandbox saw at that path, and paths deleted in the sandbox are gone.", "quantifier": "every host tree, every overlay upper tree (any depth, any mix of created, modified, replaced and deleted files, directories and symlinks), every directory listing order", "why_tests_cant": "the result depends on the shape of two unbounded trees and on the order the OS lists them; tests fix a handful of trees", "anchors": ["src/actions/accept.rs:accept", "src/sandbox/changes/changes.rs:Sandbox::changes"]}
{"id": "C02", "title": "Accept touches nothing it was not asked to touch", "statement": "`sandbox accept [patterns]` leaves unchanged every host path that is not the destination (or removed source) of an accepted change, whether it succeeds or fails part way.", "quantifier": "every host tree, upper tree, pattern list, working directory, and every outcome including errors half way", "why_tests_cant": "a frame property: it ranges over every path not mentioned by the test, and over every failure point", "anchors": ["src/actions/accept.rs:accept", "src/sandbox/changes/changes.rs:Sandbox::changes"]}
{"id": "C03", "title": "Accept checks before it acts", "statement": "If any accepted change is one that accept refuses (unsupported file type, unresolved redirect, removal of a special file, a rename that crosses a mount point, a missing staged file) then accept fails without modifying the filesystem at all.", "quantifier": "every change list containing at least one refused change, at any position, mixed with any other changes", "why_tests_cant": "must hold for every position of the bad entry among arbitrarily many good ones", "anchors": ["src/actions/accept.rs:accept"]}
{"id": "C04", "title": "Replacing a regular file is atomic", "statement": "If the machine stops at any point during `sandbox accept`, a host regular file that is being overwritten holds either its complete old content or the complete new content, never a mixture or a truncated copy.", "quantifier": "every crash point of every accept run", "why_tests_cant": "crash points cannot be enumerated by unit tests", "anchors": ["src/actions/accept.rs:accept", "src/actions/accept.rs:cp", "src/actions/accept.rs:mv"]}
{"id": "C05", "title": "Staged data survives until the host is complete", "statement": "Accept does not remove any staged file from the sandbox before every accepted change has been applied to the host; if accept fails while applying changes, the sandbox's staged data is entirely intact.", "quantifier": "every change list and every failure point or crash point in the applying phases", "why_tests_cant": "ranges over all intermediate states of all runs", "anchors": ["src/actions/accept.rs:accept (deferred_stage_removals)"]}
{"id": "C06", "title": "Accepted changes leave the sandbox", "statement": "After a successful accept, no staged file of an accepted change is left in the sandbox, so the change is not listed again.", "quantifier": "every accept run that succeeds", "why_tests_cant": "depends on the cleaning order over arbitrary trees", "anchors": ["src/actions/accept.rs:accept", "src/actions/accept.rs:rmdir_recursive"]}
{"id": "C07", "title": "Changes that were not accepted stay in the sandbox", "statement": "`sandbox accept pattern` leaves every staged change that did not match the pattern (or that is hidden by ignore rules) in the sandbox, intact.", "quantifier": "every upper tree, pattern list and ignore configuration", "why_tests_cant": "selective acceptance over arbitrary nesting of accepted directories and unaccepted children", "anchors": ["src/actions/accept.rs:accept", "src/actions/accept.rs:rmdir_recursive"]}
{"id": "C08", "title": "Reject never modifies the host", "statement": "`sandbox reject` modifies no path outside the sandbox's own staged tree, at any time during its run and whatever its outcome.", "quantifier": "every host tree, upper tree, pattern list and failure point", "why_tests_cant": "frame property over all paths and all intermediate states", "anchors": ["src/actions/reject.rs:reject"]}
{"id": "C09", "title": "Reject removes exactly the selected changes", "statement": "`sandbox reject [patterns]` only ever removes staged files of the changes that match, and when it succeeds it has removed every one of them; other staged changes survive.", "quantifier": "every upper tree, pattern list, listing order and failure point", "why_tests_cant": "set equality over arbitrary trees and over failures", "anchors": ["src/actions/reject.rs:reject", "src/sandbox/changes/changes.rs:by_staged_descending"]}
{"id": "C10", "title": "Rejecting everything restores the original view", "statement": "After `sandbox reject` of all changes the sandbox shows the host's files again: the staged tree holds no entry that hides or overrides a host path.", "quantifier": "every host tree and every overlay upper tree", "why_tests_cant": "depends on whether every kind of staged entry is reachable through some listed change", "anchors": ["src/actions/reject.rs:reject", "src/sandbox/changes/changes.rs:Sandbox::changes"]}
{"id": "C11", "title": "Every difference is listed", "statement": "With ignore rules off, if a path looks different inside the sandbox from the host (created, modified, replaced or deleted) then `sandbox status` lists a change whose path is that path; nothing changes silently.", "quantifier": "every host tree and overlay upper tree, every path", "why_tests_cant": "completeness over all trees", "anchors": ["src/sandbox/changes/changes.rs:Sandbox::changes", "src/sandbox/changes/changes.rs:upper_entries"]}
{"id": "C12", "title": "Every listed change is real", "statement": "Each listed create/modify/remove/error change corresponds to a staged entry of the sandbox at that path (or, for a removal, to a host path lying at or below a path deleted or replaced in the sandbox); removals name existing host paths.", "quantifier": "every host tree and overlay upper tree", "why_tests_cant": "soundness over all trees", "anchors": ["src/sandbox/changes/changes.rs:Sandbox::changes"]}
{"id": "C13", "title": "Deleting a symlink removes only the symlink", "statement": "If a host symlink is deleted or replaced in the sandbox and the change is accepted, the file or directory the symlink points to is not modified.", "quantifier": "every host tree with symlinks, including symlinks to directories", "why_tests_cant": "depends on link-following in every call on the path", "anchors": ["src/sandbox/changes/changes.rs:Sandbox::changes (source_is_dir, WalkDir)", "src/sandbox/changes/changes.rs:get_source_lower_path_for_upper_path"]}
{"id": "C14", "title": "Deletions are not lost", "statement": "Every deletion made in the sandbox of an existing host path (file, directory or symlink, dangling or not) is listed and, when accepted, performed.", "quantifier": "every host path deleted in the sandbox", "why_tests_cant": "ranges over every kind of deleted object", "anchors": ["src/sandbox/changes/changes.rs:get_source_lower_path_for_upper_path", "src/sandbox/changes/changes.rs:Sandbox::changes"]}
{"id": "C15", "title": "What status hides changes nothing", "statement": "A matching change that `sandbox status` does not print is a directory whose owner, group and mode equal the host's; accepting it leaves the host unchanged.", "quantifier": "every change list and host tree", "why_tests_cant": "ranges over all changes and all metadata values", "anchors": ["src/sandbox/changes/change_entries.rs:ChangeEntry::is_actually_modified", "src/actions/status.rs:status"]}
{"id": "C16", "title": "Status prints each matching change exactly once", "statement": "`sandbox status` prints every matching change that is an error, removal, rename or actual modification exactly once, prints nothing else, and prints 'No matching changes' exactly when there is none.", "quantifier": "every change list in every order", "why_tests_cant": "multiset equality across four separately sorted and filtered passes", "anchors": ["src/actions/status.rs:status"]}
{"id": "C17", "title": "Change counts add up", "statement": "The number accept reports as accepted plus the number it reports as not matching equals the number of actionable changes in the whole sandbox, and status reports the same not-matching number.", "quantifier": "every change list, pattern list and working directory", "why_tests_cant": "arithmetic identity over arbitrary lists; the saturating subtraction must never saturate", "anchors": ["src/sandbox/changes/change_entries.rs:count_actionable_changes", "src/sandbox/changes/change_entries.rs:calculate_non_matching_count", "src/actions/accept.rs:accept"]}
{"id": "C18", "title": "Selection by pattern", "statement": "`matching` keeps the listed order, selects only listed changes, and selects a change exactly when at least one normalised pattern matches its path; a change that matches a pattern list also matches any longer list that contains it.", "quantifier": "every change list, pattern list and working directory, for every glob matching function", "why_tests_cant": "quantifies over all pattern lists and all matching behaviours", "anchors": ["src/sandbox/changes/change_entries.rs:ChangeEntries::matching"]}
{"id": "C19", "title": "No pattern means the current directory", "statement": "With no pattern, accept/reject/status select exactly the changes located strictly below the working directory.", "quantifier": "every change list and every working directory including the root", "why_tests_cant": "ranges over all directories and sibling names sharing a string prefix", "anchors": ["src/sandbox/changes/change_entries.rs:ChangeEntries::matching"]}
{"id": "C20", "title": "Pattern path normalisation", "statement": "A pattern is interpreted relative to the working directory unless absolute; `.`, `..`, repeated and trailing slashes are resolved, the resulting pattern is absolute, contains no `.` or `..` component, and never escapes above `/`.", "quantifier": "every pattern string and working directory", "why_tests_cant": "all strings", "anchors": ["src/sandbox/changes/change_entries.rs:ChangeEntries::matching"]}
{"id": "C21", "title": "Sorting changes cannot fail and is order-safe", "statement": "The comparison functions given to Rust's sort are total preorders, so sorting never panics; after sorting, removals come children first, creations come parents first, and rejected staged paths come children first.", "quantifier": "all change lists", "why_tests_cant": "transitivity/antisymmetry over all triples; Rust's sort may panic otherwise", "anchors": ["src/sandbox/changes/changes.rs:by_reverse_source", "src/sandbox/changes/changes.rs:by_destination", "src/sandbox/changes/changes.rs:by_staged_descending"]}
{"id": "C22", "title": "Mount point directory names round-trip", "statement": "The directory name derived from a mount point decodes back to the same mount point, different mount points get different names, and the name is always a single valid path component.", "quantifier": "every mount point path (byte string)", "why_tests_cant": "all byte strings", "anchors": ["src/sandbox/mount_overlays.rs:mount_overlays (BASE32_NOPAD encode)", "src/sandbox/changes/changes.rs:upper_entries (BASE32_NOPAD_NOCASE decode)"]}
{"id": "C23", "title": "Redirect attributes are read whole", "statement": "The rename source recorded by the overlay is returned exactly, whatever its length up to the 64 KiB kernel limit, and absence is reported as 'not renamed'.", "quantifier": "every attribute value", "why_tests_cant": "all lengths around the two buffer sizes", "anchors": ["src/sandbox/changes/file_details.rs:is_renamed_with_buffer_size"]}
{"id": "C24", "title": "Whiteouts are recognised exactly", "statement": "A staged entry is treated as a deletion exactly when it is an overlayfs whiteout: a character device with device number 0/0, or a file carrying the whiteout attribute; no other device node is treated as a deletion.", "quantifier": "every device number and attribute set", "why_tests_cant": "all device numbers", "anchors": ["src/sandbox/changes/file_details.rs:is_removed"]}
{"id": "C25", "title": "Rename sources are resolved like the kernel does", "statement": "The host path sandbox uses as the source of a staged entry is the host path overlayfs itself takes the lower content of that entry from.", "quantifier": "every upper tree with any nesting of renamed directories (absolute or relative redirects)", "why_tests_cant": "unbounded nesting of redirects", "anchors": ["src/sandbox/changes/changes.rs:get_source_lower_path_for_upper_path"]}
{"id": "C26", "title": "Mount point search", "statement": "find_mount_point returns an existing ancestor-or-self of the path such that every directory between it and the closest existing ancestor of the path is on the same device, and its parent is on another device or it is the root; it always terminates.", "quantifier": "every path, existing or not, on every layout of devices", "why_tests_cant": "all paths and device layouts", "anchors": ["src/util/find_mount_point.rs:find_mount_point"]}
{"id": "C27", "title": "Renamed directories are accepted correctly", "statement": "After accepting a directory rename made in the sandbox, the directory's whole tree is found at the new path with unchanged content and nothing is left at the old path.", "quantifier": "every host tree and directory, every subtree size", "why_tests_cant": "unbounded subtrees and interactions of several renames", "anchors": ["src/actions/accept.rs:accept", "src/sandbox/changes/changes.rs:Sandbox::changes"]}
{"id": "C28", "title": "Ignore file parsing", "statement": "Each non-blank, non-comment ignore line yields one pattern (two when it has no wildcard and no trailing slash), carrying the line's negation; comments and blank lines yield nothing; patterns never contain `//`; parsing always terminates.", "quantifier": "every ignore file content", "why_tests_cant": "all strings; the slash-collapsing loop must terminate on every input", "anchors": ["src/sandbox/changes/changes.rs:parse_ignore_content"]}
{"id": "C29", "title": "Ignore rules: last match wins, built-ins always win", "statement": "A path that matches a built-in pattern is always ignored; otherwise it is ignored exactly when the last matching rule, in order from the outermost directory to the innermost, is not a negation.", "quantifier": "every tree of ignore files and every path, for every glob matching function", "why_tests_cant": "unbounded rule lists", "anchors": ["src/sandbox/changes/changes.rs:Sandbox::is_ignored"]}
{"id": "C30", "title": "Ignore decisions do not depend on what was visited before", "statement": "Whether a path is ignored depends only on the files present, not on the order in which paths are visited or on cached rule files.", "quantifier": "every visiting order and cache history", "why_tests_cant": "all histories of the cache", "anchors": ["src/sandbox/changes/changes.rs:Sandbox::is_ignored (resolved_ignores)"]}
{"id": "C31", "title": "--ignored only adds changes", "statement": "Running with `--ignored` lists exactly the changes listed without it plus those of ignored paths; the ignore rules never alter how a path that is not ignored and not renamed is listed.", "quantifier": "every upper tree, host tree and rule set", "why_tests_cant": "set relation over all trees", "anchors": ["src/sandbox/changes/changes.rs:upper_entries", "src/sandbox/changes/changes.rs:Sandbox::changes"]}
{"id": "C32", "title": "Recursive removal is confined", "statement": "The recursive removal used by accept and delete removes exactly the given directory and what is below it, never follows symlinks found inside, never removes anything on another device, and removes nothing else even if it fails.", "quantifier": "every tree, every nesting of symlinks and mount points", "why_tests_cant": "all trees, all failure points", "anchors": ["src/actions/accept.rs:rmdir_recursive"]}
{"id": "C33", "title": "Overlays are mounted parents first and unmounted children first", "statement": "When a sandbox is started each overlay is mounted after the overlays of all its parent mount points; unmounting proceeds in an order where nothing is unmounted before the mounts below it, and only mounts at or below the sandbox's own directory are unmounted.", "quantifier": "every mount table", "why_tests_cant": "all mount tables", "anchors": ["src/sandbox/mount_overlays.rs:scan_system_mounts", "src/util/mounts.rs", "src/sandbox/unmount.rs"]}
{"id": "C34", "title": "Configuration precedence", "statement": "For every setting, a command-line value wins over an environment value, which wins over configuration files (later files over earlier ones), which win over the default; list-valued bind mounts accumulate over all sources.", "quantifier": "every combination of sources", "why_tests_cant": "combinatorial number of source combinations", "anchors": ["src/config/resolve.rs:resolve_config", "src/config/resolve.rs:merge_configs"]}
{"id": "C35", "title": "Bind mount argument parsing", "statement": "A bind argument `source[:target][:options]` is split as documented: target defaults to source, options to read-write; the parts reassemble to the argument; ill-formed arguments are rejected.", "quantifier": "every argument string", "why_tests_cant": "all strings", "anchors": ["src/config/resolve.rs:parse_bind_mount"]}
{"id": "C36", "title": "Bind mount targets are unique", "statement": "At every place inside the sandbox there is at most one bind mount: requests for the same target that differ in source or options are rejected, identical ones are merged, and no default bind is silently replaced.", "quantifier": "every list of bind mounts from all sources", "why_tests_cant": "all lists", "anchors": ["src/config/resolve.rs:resolve_config"]}
{"id": "C37", "title": "Masked and read-only paths stay masked", "statement": "If a path is configured as masked (or read-only) inside the sandbox then the sandboxed process cannot see (or write) the host object at that path through any other bind mount placed later.", "quantifier": "every set of bind mounts and every order in which they are mounted", "why_tests_cant": "depends on the iteration order of a hash map", "anchors": ["src/sandbox/get_or_create.rs:setup (bind loops)", "src/config/resolve.rs:resolve_config"]}
{"id": "C38", "title": "An existing sandbox is only reused with the same isolation settings", "statement": "get_or_create with an existing sandbox succeeds only if the requested network mode and the requested user bind mounts equal those it was created with; otherwise it fails and changes nothing.", "quantifier": "every stored settings file and every requested configuration", "why_tests_cant": "all pairs of settings", "anchors": ["src/sandbox/get_or_create.rs:get_or_create", "src/sandbox/settings.rs:validate_*"]}
{"id": "C39", "title": "Overlay mount options cannot be injected", "statement": "The option string passed to mount is parsed by the kernel into exactly the intended lowerdir, upperdir and workdir for every mount point that passes the checks.", "quantifier": "every storage directory, sandbox name and mount point", "why_tests_cant": "all strings", "anchors": ["src/sandbox/mount_overlays.rs:mount_overlays", "src/util/mount.rs:check_path_for_mount_option_compatibility"]}
{"id": "C40", "title": "Sandbox names cannot escape the storage directory", "statement": "For every accepted sandbox name, the sandbox's directory, lock file and pid file are direct children of the storage directory; deleting a sandbox cannot remove anything else.", "quantifier": "every name accepted by validation", "why_tests_cant": "all names", "anchors": ["src/config/resolve.rs:validate_config", "src/sandbox/get_or_create.rs:from_location", "src/sandbox/delete.rs"]}
{"id": "C41", "title": "Different sandboxes use different files", "statement": "Two sandboxes with different names never share a data directory, lock file or pid file.", "quantifier": "all pairs of names", "why_tests_cant": "all pairs of strings", "anchors": ["src/sandbox/get_or_create.rs:from_location", "src/util/lock_sandbox.rs"]}
{"id": "C42", "title": "At most one process operates on a sandbox at a time", "statement": "Two processes never hold the lock of the same sandbox simultaneously, under any interleaving of starts, exits, crashes and deletions.", "quantifier": "every number of processes and every schedule", "why_tests_cant": "all schedules", "anchors": ["src/util/lock_sandbox.rs:lock_sandbox", "src/sandbox/delete.rs"]}
{"id": "C43", "title": "Stop kills exactly the sandbox's processes", "statement": "`sandbox stop` kills every process in the sandbox's process namespace and no other process, and removes the pid file; with no recorded running process it kills nothing.", "quantifier": "every process table and pid file state, including stale pid files", "why_tests_cant": "all process tables; pid reuse", "anchors": ["src/sandbox/stop.rs", "src/util/get_running_sandbox_pid.rs"]}
{"id": "C44", "title": "A sandbox start is reported successful only if set-up succeeded", "statement": "The parent treats the sandbox as started only if the sandbox set-up code ran to completion.", "quantifier": "every way the set-up process may end, including dying without reporting", "why_tests_cant": "all failure points of the child", "anchors": ["src/sandbox/get_or_create.rs:start_sandbox"]}
{"id": "C45", "title": "Deleting a sandbox removes only that sandbox", "statement": "`sandbox delete` removes the sandbox's own directory tree, lock file and pid file and nothing else in the filesystem.", "quantifier": "every filesystem content below the storage directory, every name", "why_tests_cant": "frame property over all paths", "anchors": ["src/sandbox/delete.rs", "src/actions/accept.rs:rmdir_recursive"]}
{"id": "C46", "title": "--last selects the newest sandbox", "statement": "`--last` selects an existing sandbox such that no other existing sandbox in the storage directory was created later, and fails exactly when there is none.", "quantifier": "every set of sandboxes and creation times", "why_tests_cant": "all sets", "anchors": ["src/config/resolve.rs:find_last_sandbox"]}
{"id": "C47", "title": "--new selects an unused name", "statement": "The name generated for `--new` is not the name of an existing sandbox in the storage directory, and generation terminates.", "quantifier": "every storage directory content and every clock value", "why_tests_cant": "all directory contents", "anchors": ["src/config/resolve.rs:generate_timestamp_name"]}
{"id": "C48", "title": "Credentials are not taken from an untrusted caller", "statement": "When the binary runs set-uid, the user identity comes from the real uid and never from SUDO_UID/SUDO_GID/SUDO_USER; after dropping privileges the process cannot regain root and user commands run with the caller's uid and gid.", "quantifier": "every environment and every uid/gid/euid combination", "why_tests_cant": "all environments and identities", "anchors": ["src/util/resolve_uid_gid_home.rs", "src/util/drop_privileges.rs", "src/sandbox/exec.rs"]}
{"id": "C49", "title": "Permission checks use the caller's rights", "statement": "Paths named by the user are accepted only if the user's own uid/gid could access them (owner, group, other classes), never merely because the binary runs as root.", "quantifier": "every uid/gid, file owner, group and mode", "why_tests_cant": "all mode combinations", "anchors": ["src/util/access.rs"]}
{"id": "C50", "title": "Early log messages are neither lost nor reordered", "statement": "Messages logged before the configuration is known are emitted once the level is set, in order, each at most once, and exactly those the configured level admits.", "quantifier": "every sequence of log calls and every level", "why_tests_cant": "all sequences", "anchors": ["src/logger.rs"]}
{"id": "C51", "title": "Only redirected or whited-out paths move or disappear", "statement": "A host path that lies at or below no whiteout, opaque directory, replaced directory or rename source keeps existing through accept; in particular a merged directory's unlisted children are untouched.", "quantifier": "every host tree and upper tree", "why_tests_cant": "all trees", "anchors": ["src/actions/accept.rs:accept", "src/sandbox/changes/changes.rs:Sandbox::changes"]}
{"id": "C52", "title": "Ownership and permissions are carried over", "statement": "For every accepted creation or modification the host object ends with the staged object's uid, gid and (except for symlinks) all twelve permission bits including setuid/setgid/sticky, independent of the umask.", "quantifier": "every mode, owner and umask", "why_tests_cant": "all mode values; ordering of chown and chmod", "anchors": ["src/actions/accept.rs:set_permissions"]}
{"id": "C53", "title": "Extended attributes are carried over", "statement": "An accepted file carries the extended attributes (capabilities, ACLs, user attributes) it had in the sandbox.", "quantifier": "every attribute set", "why_tests_cant": "all attribute sets", "anchors": ["src/actions/accept.rs:cp", "src/actions/accept.rs:set_permissions"]}
{"id": "C54", "title": "Diff does not crash", "statement": "`sandbox diff` completes for every change list that `changes` can produce.", "quantifier": "every host tree and upper tree", "why_tests_cant": "all change lists", "anchors": ["src/actions/diff.rs:diff"]}
{"id": "C55", "title": "Listing stays possible for every file name", "statement": "Status, accept and reject complete for every legal Linux file name, including names that are not valid UTF-8.", "quantifier": "every byte string that is a legal file name", "why_tests_cant": "all byte strings", "anchors": ["src/sandbox/changes/changes.rs:Sandbox::is_ignored"]}
{"id": "C56", "title": "Bad configuration values are reported, not panics", "statement": "Whatever the environment variables, configuration files and command line contain, resolving the configuration ends with a configuration or an error message, never with a panic.", "quantifier": "every environment, file contents and command line", "why_tests_cant": "all strings in all sources", "anchors": ["src/config/resolve.rs:resolve_config"]}
{"id": "C57", "title": "The same request reuses the running sandbox", "statement": "Repeating a command with the same configuration while the sandbox is running always finds its stored settings compatible, whatever order the bind mounts are enumerated in.", "quantifier": "every configuration, every mount table and every hash-map iteration order", "why_tests_cant": "iteration order of a randomly seeded hash map", "anchors": ["src/sandbox/settings.rs:validate_against_config", "src/sandbox/settings.rs:user_bind_mounts"]}
{"id": "C58", "title": "The sandbox sees only overlays and what was configured", "statement": "At every path the sandboxed process sees the overlay of the host mount the path belongs to, a fresh pseudo filesystem, a mask, or a bind mount configured at or above the path; a host object is reachable directly only through a configured bind, and read-only binds are read-only; the kernel interfaces the program masks stay masked unless a bind is configured there.", "quantifier": "every path, mount table and set of bind mounts", "why_tests_cant": "all paths and all mount tables", "anchors": ["src/sandbox/get_or_create.rs:setup_sandbox_and_sleep_forever", "src/sandbox/mount_overlays.rs"]}
{"id": "C59", "title": "Starting creates directories only inside the sandbox's directory", "statement": "Every directory that starting a sandbox creates (with the program's elevated privileges) on the host is the sandbox's own directory or below it.", "quantifier": "every storage directory, name, mount table and settings file", "why_tests_cant": "all file contents", "anchors": ["src/sandbox/mount_overlays.rs:mount_overlays", "src/sandbox/mount_overlays.rs:determine_mounts"]}
{"id": "C62", "title": "An ended command does not leave the sandbox locked", "statement": "Whenever no command holds the lock of a sandbox, a command waiting for it gets it, whatever commands were killed before and at whatever moment.", "quantifier": "every history of starts, waits, clones, deletions, exits and kills", "why_tests_cant": "all crash points and interleavings", "anchors": ["src/util/lock_sandbox.rs:Lock::sandbox", "src/sandbox/get_or_create.rs:start_sandbox"]}
{"id": "C60", "title": "The listing is exact", "statement": "`sandbox list` reports every sandbox of the storage directory whose name matches one of the given patterns (all if none is given), each exactly once, in alphabetical order, under Running if the process recorded for it exists and under Stopped otherwise, and nothing else.", "quantifier": "every storage directory content, process table and list of patterns", "why_tests_cant": "unbounded directories and names", "anchors": ["src/actions/list.rs:get_sandboxes"]}
{"id": "C61", "title": "Commands with patterns affect only the matching sandboxes", "statement": "`sandbox delete PATTERN...` and `sandbox stop PATTERN...` (and --all) change no file, process or mount that does not belong to a sandbox whose name matches; delete accounts for every matching sandbox, as deleted or as an error, and what it reports as deleted is gone; nothing happens without confirmation.", "quantifier": "every storage directory content, process and mount table, list of patterns, and every intermediate state (crash point)", "why_tests_cant": "unbounded sets of sandboxes and all crash points", "anchors": ["src/actions/delete.rs:delete", "src/actions/stop.rs:stop", "src/actions/list.rs:get_sandboxes"]}
{"id": "C63", "title": "Accepting changes does not change what the sandbox shows", "statement": "After `sandbox accept` of any selection of changes has succeeded, a process in the sandbox still finds the same files with the same content, type, owner and mode at every path: accepted changes are now seen through the host, the others are still staged.", "quantifier": "every host tree, upper tree, selection of changes and path", "why_tests_cant": "all trees and all partial selections", "anchors": ["src/actions/accept.rs:accept", "src/sandbox/changes/changes.rs:Sandbox::changes"]}
{"id": "C64", "title": "Commands run inside the sandbox", "statement": "`sandbox exec` (and the shell a bare `sandbox` starts) runs the command in the namespaces of the sandbox's first process, with that mount namespace's root as root directory, the caller's working directory below it and only the caller's user and group ids; none of the sandbox's own namespaces is one of a process that existed before the sandbox; if anything fails, no command runs.", "quantifier": "every history of processes ending and starting on the machine, every system call failure, working directory and sandbox record", "why_tests_cant": "all process histories, including reused process numbers, and every failing call", "anchors": ["src/sandbox/exec.rs:Sandbox::exec", "src/sandbox/get_or_create.rs:start_sandbox"]}
{"id": "C65", "title": "The command's exit status is passed on", "statement": "When the command ends, the sandbox process ends in the same way (same exit code, or killed by the same signal), however the waiting was interrupted before; and it does not end before.", "quantifier": "every interleaving of interruptions, the command's end and the waiting loop, every exit status and signal disposition", "why_tests_cant": "all schedules of signals and child exit", "anchors": ["src/sandbox/exec.rs:Sandbox::exec (wait loop)"]}
{"id": "C66", "title": "The command gets the caller's arguments and environment", "statement": "The command is executed with exactly the arguments given and every environment variable of the caller, except that SANDBOX and SANDBOX_STORAGE_DIR say which sandbox it is in.", "quantifier": "every argument list and environment", "why_tests_cant": "unbounded strings and environments, including bytes that are not UTF-8", "anchors": ["src/sandbox/exec.rs:Sandbox::exec"]}
{"id": "C67", "title": "Choosing the storage directory changes nothing that exists", "statement": "Resolving --storage-dir (or the defaults) creates at most missing directories: no existing file or directory is changed in content, owner or mode, at any intermediate point; the directory returned exists, belongs to the user, and lies below a directory the user may write.", "quantifier": "every filesystem tree, argument, mount table, caller and intermediate state", "why_tests_cant": "all trees and arguments, run with root's rights", "anchors": ["src/config/resolve.rs:resolve_sandbox_storage_dir", "src/util/mkdir.rs:mkdir"]}
{"id": "C68", "title": "A usable storage directory is accepted", "statement": "A directory that exists, belongs to the user and is on a supported filesystem is accepted as storage directory and left unchanged.", "quantifier": "every filesystem tree, argument and caller", "why_tests_cant": "all trees and permissions", "anchors": ["src/config/resolve.rs:resolve_sandbox_storage_dir", "src/util/access.rs:can_mkdir"]}
{"id": "C69", "title": "The storage directory is on a filesystem that overlayfs can use", "statement": "Whenever a storage directory is accepted, the filesystem it is on (what is visible there) has one of the supported types btrfs, ext4, tmpfs, xfs, zfs.", "quantifier": "every mount table, filesystem tree and argument", "why_tests_cant": "all mount tables, including stacked mounts", "anchors": ["src/config/resolve.rs:resolve_sandbox_storage_dir"]}
{"id": "C70", "title": "Accepting never destroys the only copy of a file", "statement": "At every moment of an accept, successful or not, every regular file a process in the sandbox could see before it still exists with the same contents, on the host or in the sandbox's storage.", "quantifier": "every sandbox state, selection and crash point", "why_tests_cant": "all sandbox contents and all intermediate states", "anchors": ["src/actions/accept.rs:accept", "src/sandbox/changes/changes.rs"]}
{"id": "C71", "title": "--json prints one object that agrees with what happened", "statement": "With --json a command prints no text but one JSON object whose status is success exactly if the exit status is 0, with the error message otherwise; the flag changes nothing else about what the command does; and a successful delete reports exactly the sandboxes it deleted.", "quantifier": "every command, configuration, machine state and answer", "why_tests_cant": "all commands, states and ways to fail", "anchors": ["src/util/output.rs:output_json", "src/main.rs:main", "src/actions/delete.rs:delete"]}
{"id": "C72", "title": "delete asks before it destroys anything", "statement": "Without --yes, delete removes nothing and kills nothing until the names of all sandboxes concerned have been shown and the user has answered y; after that only these sandboxes are affected. With --yes nothing is asked.", "quantifier": "every machine state, pattern list, answer and intermediate state", "why_tests_cant": "all storage contents and every moment of the run", "anchors": ["src/actions/delete.rs:delete"]}
{"id": "C73", "title": "The numbers shown before a deletion", "statement": "The numbers of entries and ignored entries that delete shows for a sandbox are the numbers of staged files, links and deletion marks that the ignore rules let through and hide; if both are 0 there is nothing to lose.", "quantifier": "every sandbox, set of ignore rules and directory order", "why_tests_cant": "all sandbox contents and rules", "anchors": ["src/sandbox/changes/changes.rs:count_upper_entries", "src/actions/delete.rs:delete"]}
{"id": "C74", "title": "What status prints identifies the changes", "statement": "The JSON output of status has one object for every line of the text output, in the same order and about the same change; and from either output it can be told which operation happened to which path: different changes never look alike.", "quantifier": "every machine state, pattern list and file name", "why_tests_cant": "all file names, including those a program in the sandbox chooses", "anchors": ["src/actions/status.rs:status", "src/sandbox/changes/change_entries.rs:to_json", "src/sandbox/changes/change_entries.rs:display"]}
{"id": "C75", "title": "config prints the values in use", "statement": "config with one key prints exactly its value (the same with --json), anything else is an error; config upper_cwd prints the directory below which files made in the current directory are staged.", "quantifier": "every key, configuration, mount layout and current directory", "why_tests_cant": "all mount layouts", "anchors": ["src/actions/config.rs:config", "src/config/resolve.rs:resolve_config"]}
{"id": "C76", "title": "Only accept changes the host", "statement": "Whatever a command other than accept does, and wherever it is interrupted, nothing outside the storage directory changes, and inside it only the entries of the sandboxes the command is about; config, sync, list, status and diff change nothing at all.", "quantifier": "every command, option, sandbox name, machine state and interruption point", "why_tests_cant": "all commands, all names and all crash points", "anchors": ["src/main.rs:main", "src/actions/stop.rs:stop", "src/actions/delete.rs:delete", "src/actions/reject.rs:reject", "src/actions/status.rs:status", "src/actions/diff.rs:diff"]}
{"id": "C77", "title": "Two accepts at the same time lose nothing", "statement": "If a second accept of the same sandbox has made its listing before a first one runs, and then goes on, no file that the sandbox showed is lost from the host and the storage at any moment.", "quantifier": "every sandbox state, both selections, every state of both runs", "why_tests_cant": "schedules and all staged trees", "anchors": ["src/main.rs:main", "src/actions/accept.rs:accept"]}
{"id": "C78", "title": "Starting a sandbox leaves no pending changes", "statement": "When a sandbox without changes is started, its list of pending changes is still empty afterwards, whatever mounts and bind mounts are configured.", "quantifier": "every host tree, mount table and list of bind mounts for which the start succeeds", "why_tests_cant": "all mount tables and bind targets", "anchors": ["src/sandbox/get_or_create.rs:setup_sandbox", "src/sandbox/mount_overlays.rs:mount_overlays", "src/sandbox/changes/changes.rs:changes"]}
{"id": "C79", "title": "Starting a sandbox changes nothing on the host", "statement": "Starting a sandbox creates, changes or removes no file of the host outside the directory of its layers, whatever mounts and bind mounts are configured.", "quantifier": "every host tree, mount table and list of bind mounts for which the start succeeds, every path", "why_tests_cant": "all mount tables and bind targets", "anchors": ["src/sandbox/get_or_create.rs:setup_sandbox"]}
{"id": "C80", "title": "Ignore lines that name a file or directory", "statement": "With a single ignore line: `name` ignores everything called so at any depth below the directory of the ignore file, and what is inside; `/name` only directly in that directory; `name/` the contents of every directory called so at any depth; `/name/` those of the one directly in that directory.", "quantifier": "every name without special characters, every directory holding the ignore file, every path below it, every glob library that treats such patterns as documented", "why_tests_cant": "all names, depths and trees", "anchors": ["src/sandbox/changes/changes.rs:parse_ignore_content", "src/sandbox/changes/changes.rs:Sandbox::is_ignored"]}
{"id": "C81", "title": "A sandboxed process changes the host only where it was allowed to", "statement": "Whatever a process inside a sandbox writes, and however often, on the host nothing changes outside the sandbox's own directory (upper, work and data directories) and the sources of bind mounts configured read-write.", "quantifier": "every sequence of writes at every path of the sandbox, every mount table, settings file of an outer sandbox and list of bind mounts", "why_tests_cant": "all histories of writes, all mount tables", "anchors": ["src/sandbox/mount_overlays.rs:mount_overlays", "src/sandbox/get_or_create.rs:setup_sandbox", "src/util/mount.rs:check_path_for_mount_option_compatibility"]}
{"id": "C82", "title": "A masked path cannot be seen under any name in the sandbox", "statement": "If a path is masked and no other bind mount has to do with it, then at no path of the sandbox, whatever was done in it and however often it was stopped and started, an object of the host at or below the masked path can be seen.", "quantifier": "every state of the sandbox's layers, every mount table, list of binds and path inside the sandbox", "why_tests_cant": "all histories inside the sandbox and all paths", "anchors": ["src/sandbox/get_or_create.rs:setup_sandbox_and_sleep_forever", "src/sandbox/mount_overlays.rs:mount_overlays", "src/config/resolve.rs:parse_bind_mount"]}
{"id": "C83", "title": "Files the caller may not read have no influence", "statement": "When the program runs set-uid root, the outcome of reading the configuration (including its error messages) does not depend on the text of any file the calling user may not read.", "quantifier": "every pair of file trees that differ only in such files, every environment, command line and TOML parser", "why_tests_cant": "a noninterference property over all pairs of trees", "anchors": ["src/config/resolve.rs:load_partial", "src/config/resolve.rs:find_config_files", "src/util/access.rs:can_access"]}
{"id": "C84", "title": "A sandbox nobody asked bind mounts for exposes only the announced objects", "statement": "If no configuration file, variable or option asks for a bind or mask, every bind mount is one of /dev/fuse, ~/.claude, ~/.aider, ~/.cursor (with the host's network also /run/dbus, /run/systemd and the session bus), at its own canonical place; and the host changes only there and in the sandbox's directory.", "quantifier": "every environment, file tree, set of configuration files, mount table and history of writes", "why_tests_cant": "all environments, trees and histories", "anchors": ["src/config/resolve.rs:get_default_bind_mounts", "src/config/resolve.rs:resolve_config", "src/config/resolve.rs:parse_bind_mount"]}
{"id": "C85", "title": "Bind mounts give the caller no new rights", "statement": "Whatever the calling user can open below a bind mount he asked for, he can open at its original place on the host.", "quantifier": "every file tree, user, bind argument, path below the source and access mode", "why_tests_cant": "a statement about every permission assignment of the directories above a source", "anchors": ["src/config/resolve.rs:parse_bind_mount", "src/sandbox/get_or_create.rs:start_sandbox", "src/util/access.rs:can_access"]}
{"id": "C86", "title": "accept changes only what its caller could change", "statement": "When the program runs set-uid root, accepting changes alters only paths whose directory the calling user may write (or that lie below something new he could make), whatever he did with the sandbox storage before.", "quantifier": "every file tree, every sequence of the user's own operations before it, every selection, every moment of the command", "why_tests_cant": "quantifies over everything an unprivileged user may do before", "anchors": ["src/actions/accept.rs:accept", "src/sandbox/get_or_create.rs:from_location", "src/sandbox/mount_overlays.rs:mount_overlays"]}
{"id": "C87", "title": "A stop that reports success has stopped", "statement": "When `sandbox stop` (or `stop --all`, with or without patterns) reports success, every sandbox it was about has no pid file any more and nothing is mounted in its directory.", "quantifier": "every machine state, process table, order of /proc, set of sandboxes and patterns", "why_tests_cant": "ranges over every state in which a stop can partly fail", "anchors": ["src/actions/stop.rs:stop", "src/actions/stop.rs:stop_all", "src/sandbox/stop.rs:stop", "src/sandbox/unmount.rs:unmount"]}
{"id": "C88", "title": "No program of the caller's choice runs with root's rights", "statement": "When the set-uid program runs another program with root's rights during `diff`, that program is not one the caller owns or may write.", "quantifier": "every caller, environment, file system and sandbox", "why_tests_cant": "ranges over every environment and everything the caller can put on the file system", "anchors": ["src/actions/diff.rs:diff", "src/main.rs:main", "Makefile:install"]}
{"id": "C89", "title": "diff shows no file its caller may not read", "statement": "Every file whose contents `diff` compares and prints is one that the user who types the command could open for reading himself.", "quantifier": "every caller, file system, sandbox, working directory and patterns", "why_tests_cant": "ranges over every combination of owners, modes, links and staged changes", "anchors": ["src/actions/diff.rs:diff", "src/main.rs:main"]}
{"id": "C90", "title": "Lines diff shows are lines of the files", "statement": "A line that `diff` shows as added is a line of the staged file and one shown as removed is a line of the file on the host; after the header, what is printed is what diff(1) wrote.", "quantifier": "every pair of files, staging directory, sandbox name and output of diff(1) of unified form", "why_tests_cant": "ranges over all file contents", "anchors": ["src/actions/diff.rs:diff", "src/main.rs:main"]}
{"id": "C91", "title": "A start that fails leaves nothing behind", "statement": "When starting a stopped sandbox fails, no process of it runs, it has no pid file and none of its overlays is mounted.", "quantifier": "every machine state, set of mounts to be overlaid, point of failure (directory, mount, pid file, any step of the new process)", "why_tests_cant": "every step of the start can fail, in every state of the disk and the mount table", "anchors": ["src/sandbox/get_or_create.rs:get_or_create", "src/sandbox/get_or_create.rs:start_sandbox", "src/sandbox/mount_overlays.rs:mount_overlays"]}
{"id": "C92", "title": "No two overlays write to the same directory", "statement": "At any time each staging directory of a sandbox (upper/H) belongs to at most one mounted overlay: no two overlays are mounted at the same place overlay/H.", "quantifier": "every history of starts, failed starts, stops and ends of processes, from any state in which nothing is mounted", "why_tests_cant": "ranges over all histories, including those in which the sandbox's process dies on its own", "anchors": ["src/sandbox/get_or_create.rs:get_or_create", "src/sandbox/mount_overlays.rs:mount_overlays", "src/util/get_running_sandbox_pid.rs:get_running_sandbox_pid", "src/sandbox/unmount.rs:unmount"]}
{"id": "C93", "title": "Every accepted name can be started", "statement": "If the program accepts a sandbox name and no operation fails for another reason, the sandbox starts.", "quantifier": "every name, machine state and set of mounts", "why_tests_cant": "ranges over all names", "anchors": ["src/config/resolve.rs:validate_name", "src/sandbox/get_or_create.rs:setup_sandbox_and_sleep_forever"]}
{"id": "C94", "title": "A command starts with its caller's signal dispositions", "statement": "A command run with `sandbox` starts with the same signals ignored as when the caller runs it directly.", "quantifier": "every state of dispositions of the caller, every signal, sandbox running or started by the command", "why_tests_cant": "the dispositions inherited differ with every caller", "anchors": ["src/main.rs:main", "src/sandbox/exec.rs:exec"]}
{"id": "C95", "title": "Processes that have ended disappear", "statement": "As long as a sandbox runs, every process in it that has ended can be reaped.", "quantifier": "every history of processes entering the sandbox, forking, ending and waiting", "why_tests_cant": "unbounded histories and every family tree", "anchors": ["src/sandbox/get_or_create.rs:start_sandbox", "src/sandbox/exec.rs:exec"]}
{"id": "C96", "title": "A command gets exactly the open files of its caller", "statement": "A command run with `sandbox` has exactly the descriptors it would have had if the caller had run it directly, with /dev/null for a missing standard one; none of the program's own files (lock, pipe, pid descriptor) leak into it.", "quantifier": "every descriptor table of the caller, every descriptor, sandbox running or started by the command", "why_tests_cant": "every descriptor table", "anchors": ["src/sandbox/exec.rs:exec", "src/util/lock_sandbox.rs:lock_sandbox", "src/sandbox/get_or_create.rs:start_sandbox"]}
{"id": "C97", "title": "A sandbox that keeps running keeps none of its caller's files open", "statement": "The process of a sandbox that stays after the command that started it has ended has none of that command's inherited files open.", "quantifier": "every descriptor table of the caller", "why_tests_cant": "every descriptor table", "anchors": ["src/sandbox/get_or_create.rs:start_sandbox"]}
{"id": "C98", "title": "What is listed can be accepted", "statement": "If everything a sandbox changed is listed, and nothing of it as an error, then accepting all of it succeeds.", "quantifier": "every host tree on one filesystem and every sandbox of ordinary files, directories, links and deletions", "why_tests_cant": "every combination of deletions, replacements and recreated directories", "anchors": ["src/actions/accept.rs:accept", "src/sandbox/changes/changes.rs:Sandbox::changes"]}
{"id": "C99", "title": "Nothing is listed as deleted twice", "statement": "Two different entries of the list of changes never both say that the same host path is removed.", "quantifier": "every host tree and every sandbox", "why_tests_cant": "every combination of deletions, replacements and recreated directories", "anchors": ["src/sandbox/changes/changes.rs:Sandbox::changes"]}
{"id": "C100", "title": "An interrupted accept can be completed by accepting again", "statement": "If accepting all changes is interrupted at any moment (crash, kill, error), running `accept` again over the whole sandbox succeeds, and the host is then exactly what the sandbox showed before the first accept (apart from unfinished copies with made-up names).", "quantifier": "every sandbox whose changes can all be accepted, every moment of the first accept at which it stops (before, during and after the host part, in the clean-up), every listing order and every later run", "why_tests_cant": "A test can interrupt at a few points of a few trees; the claim is about every moment of every accept and all trees.", "anchors": ["src/actions/accept.rs:accept", "src/actions/accept.rs:400-412", "src/sandbox/changes/changes.rs:Sandbox::changes"]}
{"id": "C101", "title": "A new sandbox shows the host as it is", "statement": "Right after a sandbox is started for the first time, every path has inside the sandbox the kind, content, permission bits, owner and group that it has on the host.", "quantifier": "every host tree and user, every set of mounted file systems, umask and first start that succeeds, every path", "why_tests_cant": "Tests look at a few files of one machine, where the mount points have the mode 0755; the claim is about every path of every tree and every mode of a mount point.", "anchors": ["src/sandbox/mount_overlays.rs:Sandbox::mount_overlays", "src/util/mkdir.rs:mkdir", "src/sandbox/get_or_create.rs:Sandbox::get_or_create"]}
{"id": "C102", "title": "A sandbox opens nothing that is closed on the host", "statement": "In a newly started sandbox a user cannot read, write or search any path that the permission bits of the host deny to him.", "quantifier": "every host tree, set of mounted file systems, umask, user without privileges and first start that succeeds, every path and kind of access", "why_tests_cant": "Tests run as one user on one machine; the claim is about every user, tree and mode.", "anchors": ["src/sandbox/mount_overlays.rs:Sandbox::mount_overlays", "src/util/mkdir.rs:mkdir"]}
{"id": "C103", "title": "Starting a sandbox changes nothing outside its own files", "statement": "A start, at every moment of it and whether or not it succeeds, leaves every file and directory of the host as it was, apart from what is below <storage>/<name> and the files <name>.lock and <name>.pid.", "quantifier": "every host tree, storage directory, name, set of mounted file systems, failing mount(2) call, way the new process ends, and moment of the run", "why_tests_cant": "Tests look at a few files on a clean machine; the claim is about every file, every tree (with what a user may have put into it) and every crash point.", "anchors": ["src/sandbox/mount_overlays.rs:Sandbox::mount_overlays", "src/sandbox/settings.rs:SandboxSettings::save_to_file", "src/util/mkdir.rs:mkdir", "src/sandbox/get_or_create.rs:Sandbox::get_or_create"]}
{"id": "C104", "title": "A command asked to run without network has none", "statement": "Of all commands run in a sandbox, those whose caller asked for no network are not in the host's network namespace, and those whose caller asked for the host's network are.", "quantifier": "every history of a sandbox: invocations with any options that interleave, starts that fail, stops and killed processes, restarts, and changes to settings.json by anybody", "why_tests_cant": "Ranges over all histories and interleavings; a test tries one start and one command.", "anchors": ["src/sandbox/get_or_create.rs:Sandbox::get_or_create", "src/sandbox/get_or_create.rs:Sandbox::start_sandbox", "src/sandbox/settings.rs:SandboxSettings::validate_against_config", "src/sandbox/exec.rs:Sandbox::exec"]}
{"id": "C105", "title": "A command sees the mounts its caller asked for", "statement": "Every command run in a sandbox finds exactly the bind mounts and masks its caller asked for (and the data directory), and overlays of exactly the file systems that were mounted when it was asked for.", "quantifier": "every history of a sandbox: invocations with any options that interleave, starts that fail, stops and killed processes, restarts, and changes to settings.json by anybody", "why_tests_cant": "Ranges over all histories, interleavings and pairs of option lists.", "anchors": ["src/sandbox/get_or_create.rs:Sandbox::get_or_create", "src/sandbox/settings.rs:SandboxSettings::validate_against_config", "src/sandbox/mount_overlays.rs:Sandbox::determine_mounts", "src/sandbox/exec.rs:Sandbox::exec"]}
{"id": "C106", "title": "`config` with several keys prints a line for each, or nothing", "statement": "`config k1 k2 ...` prints one line key=value for each key, in order, with the value that the key alone gives; if a key is refused the call fails and prints nothing. Every key may be written with dashes or with underscores.", "quantifier": "every list of keys (any strings), every configuration and every state of the file system", "why_tests_cant": "Ranges over all lists of strings and all configurations.", "anchors": ["src/actions/config.rs:config", "src/actions/config.rs:print_config_line"]}
