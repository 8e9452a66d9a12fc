# Formal model of nbd (server, client, tools) in Rocq 8.16.1

The subject is the C source in `/repo` (NetworkBlockDevice/nbd at the pinned
commit).  Nothing there is built or run: each definition of the model is a
hand translation of a C function and carries a comment with file and lines.
Everything below `rocq/theories` is under the logical name `Verif`.

## 1. Conventions of the model

* **Integers** are `Z`.  C conversions are written out where they can matter:
  `u64`, `u32`, `u16`, `u8`, `i64` (wrap modulo 2^k, two's complement).  Host
  byte order is little endian (x86-64/aarch64 Linux); `htonl` & co. are explicit.
* **Bytes** are `Z` in 0..255 (`is_byte`), streams are `list Z`, file contents
  are functions `Z -> Z` together with a size (so that multi-gigabyte offsets
  stay computable).
* **System calls** (`pread`, `pwrite`, `write`, `fsync`, `read`, `getaddrinfo`,
  TLS primitives ...) take their outcome (full, short by n, error e) from an
  oracle stream which is universally quantified in the theorems.  What each call
  does to the state once the outcome is chosen is written in the model and is
  part of the trusted base.
* **Undefined behaviour** (out-of-bounds access, use of NULL, read of
  uninitialised data that reaches an output) is a separate outcome `Ub`;
  `exit()` paths are `Die`; an exhausted loop bound is `Stuck`.  Theorems either
  exclude them or exhibit them.
* **Loops** are run by one combinator (`loopP`, binary fuel) with a rule for
  total correctness, so a theorem about a loop includes its termination.
* **Concurrency** is modelled by small-step transition systems whose steps are
  the shared accesses of the C code (lock, unlock, one syscall, one map access);
  theorems quantify over all schedules (`list` of thread ids or the reflexive
  transitive closure).
* **Crash** is modelled on the log of disk events: after a crash a byte has
  either its value at the last successful sync of that file or any value written
  since.

File naming: `M_*.v` models (definitions only), `S_*.v` independent
specifications (short, no reference to model helpers), `L_*.v` lemmas, `P_*.v`
property theorems: statement, `exact lemma`, `Print Assumptions`, and an
`Example` showing a concrete non-trivial instance of the hypotheses.

A property whose full statement is false of the model gets a theorem
`..._refuted` (witness checked by computation) and, where there is one, the
strongest true part as `..._partial` (or an unconditional theorem under the
exact guard).

P_Suite.v runs the cases of the project's unit tests on the model: the netmasks of
tests/code/mask.c, the addresses of clientacl.c, the file of size.c, the request of
trim.c, and the six nbdtab files of tests/parse, with the results the tests expect.
tests/code/dup.c is left out: `dup_serve` is not called by any program and not
modelled.

## 2. Trusted base

* The Coq 8.16.1 kernel (incl. `vm_compute`) and the standard library.  No
  axioms are added.  `Print Assumptions` of every property theorem is expected
  to be "Closed under the global context"; exceptions would be listed here.
* The reading of the C code: which functions are modelled is listed per
  property below; what is *not* modelled: getopt itself (its results are
  given as a list), syslog text, malloc failure (except where
  stated), glib internals (GArray, GThreadPool, GKeyFile are taken at their
  documented behaviour), gnutls internals (record layer = reliable byte stream,
  handshake = oracle), the kernel nbd driver, netlink, Windows/Hurd/SDP
  branches, `HAVE_SYNC_FILE_RANGE`, 32-bit `off_t`.
* POSIX semantics of the modelled calls: `pread`/`pwrite` act at the given
  offset on the named file only; `write` appends at the file position; `fsync`
  returning 0 makes the file's current content durable; semaphores, mutexes and
  rwlocks exclude each other; `fork`ed children share nothing but descriptors.
  One `read`/`write` moves at most 2^31-4096 bytes (Linux `MAX_RW_COUNT`).
  `sync()` waits for completion.  `fsync` of a newly created block file also
  makes its directory entry durable.
* `gnutls_record_send`: after GNUTLS_E_AGAIN a call with NULL data resumes the
  pending record; with nothing pending it is GNUTLS_E_INVALID_REQUEST.
* In negotiation the parent's answer about the connection limit, the outcome of
  writes, of the TLS handshake, of `set_peername`, of the prerun command and of
  preparing the diff file are oracles; a value read from an unset variable is an
  arbitrary value.
* Threads interleave between atomic steps: each system call and each access to
  shared memory is one step, memory is sequentially consistent, `errno` is per
  thread.  The thread pool runs at most its configured number of packages at a
  time and takes them in order; `g_thread_pool_free` waits for all of them.
  The log file is used by one connection.  A failing `write` to the socket
  other than EPIPE ends in `g_thread_pool_free` called by a pool thread
  (exception: the unchecked write of a spliced READ, whose failure the code
  ignores; the model lets it fail like the others).
* Several connections (M_Multi): processes share files and nothing else; a
  `pread` sees every earlier `pwrite` of any process; the outcomes of system calls
  are one stream of arbitrary answers shared by all processes.
* `getaddrinfo` with AI_NUMERICHOST is an arbitrary function from texts to
  address lists; `isspace` is that of the C locale.
* Numeric texts of addresses (`getnameinfo` with `NI_NUMERICHOST`) are those of
  `inet_ntop` of glibc, without zones; `g_strdup_printf` of an export name knows
  `%s` and `%%`, any other conversion is a separate outcome (M_Virt).
* In nbd-client each `read` of `ask_list` is one `read()` that may be short (the
  code does not loop there) or fail; bytes it did not deliver are arbitrary.
  The TLS handshake and the texts of `strerror`/`hstrerror` are oracles, the
  byte stream inside TLS is a second stream, `malloc` succeeds, `write`s succeed.
* Waitfile exports (M_Wait): one thread handles requests; what export_lock
  encloses is one step; the diff file does not fail; the map is allocated before
  the waiting thread first looks at it; `w_disk` is what `fsync`/`fdatasync` of
  the awaited file made durable, nothing else is.
* nbdtab: flex takes the longest match, first rule at equal length; bison's
  LALR parser accepts the language of the grammar (its stack is unlimited).
  `getopt_long_only` is not modelled: `main` gets its results as a list.

* Start-up of the server (M_Main): the text of the configuration file is already
  split into sections, keys and values (no escapes of GKeyFile); glibc prints
  `(null)` for a NULL `%s`; `fork`, `setsid`, `chdir("/")` and writing the pid
  file succeed; `setuid`/`setgid`/`setgroups` follow Linux with no capabilities
  beyond effective user 0; `getaddrinfo`, `getpwnam`, `getgrnam` and the outcome of
  opening each socket are arbitrary.
* The kernel's side of the device calls (M_Dev): NBD_SET_BLKSIZE and
  NBD_SET_SIZE_BLOCKS give size = blocks * block size, NBD_CLEAR_SOCK drops the
  sockets, NBD_SET_SOCK adds one; a failing call ends the client.
* Hooks (M_Hook): `dirname` and `basename` are those of glibc's `libgen.h`, which
  cut their argument; `g_thread_pool_free` waits the first time it is called and
  returns at once after that; `unlink` succeeds; SIGPIPE keeps the disposition the
  server was started with.
* Descriptors of the root process (M_Fds): the kernel hands out the lowest one that
  is free and fails at the limit; an `fd_set` holds 1024.
* Tree exports shared by processes (M_TreeMulti): each `open`, `pwrite`, `pread`
  and `unlink` of a block file is one step that others see at once; calls do not
  fail; a file that is unlinked stays for those who have it open.
* TLS (M_Tls): GnuTLS calls the verification function that is set in every
  handshake (on the server because a certificate is requested) and lets the
  handshake succeed only if it returns 0; what its functions answer is arbitrary.
* Signals (M_Sig): a process number in use is not given to a new child; pselect with
  nothing ready runs the handlers of all waiting signals; with something ready it may
  return without running them; a serving child that is sent SIGTERM ends; a request
  coming in does not block the root process (handling it is one turn).
* Netlink (M_Stat): an attribute list is what libnl's `nla_parse` makes of it: each
  attribute there or not; `sscanf("%d")` is `strtol` cut to 32 bits.
* nbd-trplay (M_Play): getopt is external, its results are the input; the image and the
  log are different files.
* C95: the processes of different connections get independent outcomes of system
  calls (every combination is allowed); each step of a process works on the disks
  as the others left them, one system call at a time.
* C96: different names are different files (no links); directories are not objects
  of the file system model.
* C97: strerror and hstrerror give any text without zero bytes; the literal texts
  in M_Err.v were copied from the sources with their lines.
* C98: as C55; the awaited file is looked at only by processes that noticed it.
* C71 (trees): sync() returns when all that was there when it was called is on the
  disk; after a crash every byte is, independently, what it was at some moment since.
* C84 (failing calls): a read, write or unlink that fails changed nothing; one that
  is cut short moved a first part of the bytes.
* C99: printf's x and s conversions with widths.
* C100: printf's d, u, x and s conversions; what perror writes to standard error is not modelled.
* C101: random() returns 0 to 2^31-1; write() stores the bytes it says it did.
* C102: on Linux BLKGETSIZE64 works on block devices only, and st_size is the size of a regular file and 0 for devices and FIFOs.
* C103: named semaphores: sem_open with O_CREAT gives the semaphore of that name or makes one with the value 1; sem_unlink takes the name away and leaves the semaphore to those who have it; neither the end of a process nor that of the server changes the value or removes the name. A record is written in one piece.
* C104: Linux with pages of 4096 bytes: a pipe of 1 MiB has 256 slots; splice from a file takes one slot for each page it touches, splice from a socket one for each piece of a packet; without SPLICE_F_NONBLOCK it sleeps while no slot is free. This is from knowledge of the kernel, it was not run.

## 3. Properties

Statements are in `properties.jsonl`.  "UB" below is the `Ub` outcome.

| id | what is modelled | how it is proved |
|----|------------------|------------------|
| C01 | `get_filepos`, `rawexpread/write(_fully)`, `expread/expwrite` (plain path), `expwrite_zeroes`, `handle_request`, `mainloop_threaded` run sequentially over a byte stream | refinement: `abs` maps the files to a flat array; each request commutes with the flat specification; induction on the stream |
| C02 | `get_filepos` binary search, `setupexport` start offsets | loop invariant of the search; uniqueness from strictly increasing starts |
| C03 | same, with a zero-length member | expected refuted by a 3-file layout; partial: offsets that are not the start of an empty file |
| C04 | `bad_range`, `bad_write`, `handle_request` with 64-bit wrap | decision lemma over all (from,len,size) |
| C05 | `handle_request` on read-only client, all commands | world unchanged invariant over streams |
| C06 | `expread/expwrite/expwrite_zeroes/exptrim/expflush` in COW mode | invariant: only the diff file changes; induction over histories |
| C07 | COW `expread` incl. the `READ_CTX` bookkeeping | expected refuted (two diverted pages in one read) |
| C08 | COW map + diff file | invariant `map i = k -> diff page k = current page i` + append position; refinement to overlay disk |
| C09 | F_SPARSE branch | expected refuted |
| C10 | difmap bounds, `find_read_buf` sizes | refuted (tail page; zero length; structured malloc(0)); partial: every session avoiding these three cases, whatever fails |
| C11 | failure paths of COW `expwrite` | expected refuted |
| C12 | `construct_path` as list of components | equals base-1024 digits; injectivity; depth |
| C13 | `get_filepos`/`open_treefile` in tree mode | refinement to flat disk |
| C14 | `exptrim`, `punch_hole`, `delete_treefile` | inclusion of punched range in requested range |
| C15 | same | expected refuted (offset beyond half of the file) |
| C16 | `expwrite_zeroes` | expected refuted for > 64 MiB; proved up to 64 MiB |
| C17 | `rawexpwrite` with sync calls, event log | crash-set invariant; refuted when fsync fails, proved when syncs succeed |
| C18 | `expflush` for plain exports | crash-set theorem |
| C19 | `expflush` for F_WAIT after the switch | expected refuted |
| C20 | request/worker transition system | invariant over schedules: multiset of outstanding + answered cookies |
| C21 | locked socket writes | invariant: stream = whole messages ++ prefix of lock holder's message |
| C22 | `mainloop_threaded` parser | round trip encode/decode by induction on request list |
| C23 | worker queue + finalize | schedule invariant; terminal states have no outstanding request |
| C24 | `rawexpread_fully` structured path | tiling lemma |
| C25 | `handle_request` error path | expected refuted; partial for successful reads w/o splice |
| C26 | `complete_read` error payload bytes | expected refuted (host order fields) |
| C27 | flag check in `handle_request` + `send_export_info` | expected refuted |
| C28 | `nbd_errno` | finite case analysis over all Z |
| C29 | `readit`, `readit_tls`, `consume`, `consume_len` | loop rule over oracle |
| C30 | `writeit`, `writeit_tls` | refuted for EAGAIN, proved without EAGAIN and for TLS |
| C31 | header layouts, `ntohll` | arithmetic |
| C32 | `buffer.c` | refinement to FIFO queue with invariant |
| C33 | `tlssession_mainloop` data movement | prefix invariant over event schedules |
| C34 | `address_matches` bit comparison, `getmaskbyte` | bit-prefix specification |
| C35 | `authorized_client` line processing | specification on lines |
| C36 | mixed families / malformed masks | refuted (224-bit compare), partial |
| C37 | `negotiate` and handlers as interpreter over a byte stream | invariant over interpreter runs |
| C38 | same, trace of sent messages | trace invariant |
| C39 | same | trace invariant |
| C40 | same, consumed byte count | refuted for LIST/INFO; proved for the rest |
| C41 | `handle_info` name buffer | refuted |
| C42 | `handle_export_name` vs `handle_info` lookup | refuted with duplicates, proved for unique names |
| C43 | `send_export_info`, `setupexport` | decision lemma |
| C44 | `handle_info` for NBD_OPT_INFO | refuted |
| C45 | `glob_flags` across connections (dontfork) | refuted; partial for forking mode |
| C46, C47 | `handle_childname` accounting (M_Root) | invariant over all histories; refuted for release and for duplicate names |
| C48 | `append_new_servers`, `parse_cfile` (M_Conf, M_Root) | list lemmas over reachable states; refuted for oldstyle |
| C49 | `parse_cfile`, `do_cfile_dir` (M_Conf) | bitwise invariant of the parameter loop |
| C50 | `serve_inc_ref/dec_ref`, `commit_client`, `finalize_client` (M_Root) | transition system invariant; refuted at the end of a connection |
| C51 | log writers with semaphore | schedule invariant + parser round trip |
| C52 | same, connection drop | refuted (deadlock witness) |
| C53 | `nbd-trplay` main loop | refinement to flat disk; plain, tree, copy-on-write and concurrent sessions; refuted parts |
| C54 | `nbd-trdump`, `nbd-trplay` on structured replies | refuted |
| C55 | `wait_file`, `commit_diff`, map path of `expread`/`expwrite` (M_Wait) | invariant over all schedules of the two threads; termination of the commit passes; refuted parts |
| C56 | race with the switch (M_Wait) | refuted by a schedule; proved when the switch does not fall into a write |
| C57 | two COW writers | refuted by a schedule |
| C58 | interleaved transfers of disjoint requests | rely/guarantee logic per byte, invariant over schedules |
| C59 | nbd-client `negotiate` | trace invariant |
| C60 | `read_reply`, `ask_list`, GO loop | refuted; proved for `ask_list` and for streams without the offending replies |
| C61 | nbd-client `negotiate`, `parse_sizes` | functional lemma |
| C62 | nbdtab lexer, grammar, actions, `get_from_config`, `main` (M_Tab) | text of well-written files parsed back; fold over entries; refuted parts |
| C63 | `set_peername` virtstyles | refuted for iphash/cidr; proved for ipliteral |
| C64 | diff offsets in COW `expread/expwrite` | refuted: 32-bit product |
| C65 | `tlssession_mainloop` send path | refuted by an event sequence |
| C66 | `handle_list` entry buffer | refuted for long names; proved up to 1020 bytes |
| C67 | server `negotiate` and client `negotiate` composed | stream-level agreement proof; refuted for a refused EXPORT_NAME |
| C68 | reconnect in nbd-client `main` (M_Tab) | functional lemmas; refuted for -R |
| C69 | `expflush`, FUA on waitfile exports (M_Wait) | refuted by schedules; proved for FUA after the switch |
| C70 | `send_export_info`, one process per connection (M_Multi over M_Par) | proved for plain exports; refuted for temporary exports; trees not covered |
| C71 | `expflush` with several processes (M_Multi, M_TreeSync) | proved for plain exports; for trees (L_TreeSync) where C84 holds; false for waitfile exports (C69, C98) |
| C72 | server `cmdline` (M_Main) | induction on the argument list; refuted for unknown units, empty words, overflow |
| C73 | `dump_section`, `parse_cfile` (M_Main, M_Conf) | round trip; refuted for -M and for a missing address |
| C74 | generic strings of `parse_cfile`, `main` (M_Main) | inversion of `main`; refuted for the TLS default and the port |
| C75 | `open_modern`, `open_unix`, `setup_servers` (M_Main) | induction on names and addresses; refuted parts |
| C76 | `dousers` (M_Main) | case analysis of credentials; refuted for user or group alone |
| C77 | `daemonize`, reload path, unlink at the end (M_Main) | descriptor table lemmas; refuted parts |
| C78 | `main` up to the serve loop (M_Main) | inversion of `main`, lemmas of C48/C49; refuted parts |
| C79 | nbd-client `main`, option loop (M_Tab) | last-occurrence lemma for each setting; refuted for block sizes |
| C80 | `setsizes`, `set_timeout`, `finish_sock`, `netlink_configure`, connection loop (M_Dev) | effect of the calls on the device; refuted parts |
| C81 | `opennet`, `openunix`, `check_conn` (M_Dev) | list lemmas; refuted for names with p |
| C82 | `do_run`, `finalize_client`, `copyonwrite_prepare`, life of a connection (M_Hook) | invariants over all connections; trace of a served one; refuted parts |
| C83 | `spawn_child`, `handle_modern_connection`, `serveloop` (M_Fds) | counting descriptors; refuted for every limit |
| C84 | `open_treefile`, `get_filepos`, `rawexpwrite`, `rawexpread`, `exptrim` by several processes (M_TreeMulti, M_TreeFail) | invariant over all schedules, page by page; calls that fail by simulation (L_TreeFail); refuted where two connections make a page or a process ends while making one |
| C85 | TLS part of `negotiate` (client), `tlssession_new`, `verify_certificate_callback` (M_Tls) | case analysis over the checks, with C79 for the options |
| C86 | `verify_cert`, `handle_starttls` (M_Tls) | case analysis; exact |
| C87 | same | expected refuted |
| C88 | `serveloop` with handlers, `spawn_child`, `killchild` (M_Sig) | invariant over all runs, measure for the turns needed |
| C89 | `disconnect`, `netlink_disconnect`, callbacks, `nbd-get-status.c` (M_Stat) | number texts from C72's lemmas; induction on the device list; the rest expected refuted |
| C90 | `process_command`, `main` of nbd-trplay (M_Log, M_Play) | block loop stopped at the limit by induction on blocks, then on log entries; invariant `held` for arbitrary bytes; strtoull of decimal text |
| C91 | `mainloop` and everything below it (M_Raw, M_Tree, M_Disk), the thread machine (M_Par) | relational logic over two runs (`rel`, L_Rel): lockstep loop rule, read contexts that agree on the bytes already read; the same over action trees (`prel`, L_RelP) and a step-by-step relation of two machines under one schedule |
| C92 | `parse_cfile`, `as_int`, `as_int64` (M_Conf) | `number` characterised on text (`begins_with`), table of parameters split at the entry |
| C93 | `p_handle_request`, `reader_step`, `worker_step` (M_Par) | frame logic over action trees (`pk`, L_FrameP), instances in L_Own; also C05 and C06 with threads |
| C94 | `connection` (M_Conn) = `negotiate` (M_Nego), `after_nego`, `sys_run` (M_Par) | invariant of negotiation about opened exports (L_Opens) and C05, C06, C91, C93 with threads (L_Conn) |
| C95 | `c_run` (M_Crowd) = many `sys_step` (M_Par) over shared `disks` (M_Conn) | per-step frame of the threaded handlers (L_FrameT), simulation by the lone run with the two-run relation of C91 (L_Crowd) |
| C96 | `tree_connection` (M_TreeName) = `commit` (M_Hook) then `sys_run` (M_Par) over files by name | two-run relation and frame restricted to reachable block paths (L_TreeName), length of block paths |
| C97 | `err_nonfatal`, `begin_export` (M_Err) with `setupexport` (M_Setup) | byte-exact buffer model; first occurrence of a %-sequence; fixed texts by computation (L_Err) |
| C98 | `wg_step`, `wg_run` (M_WaitMulti) over `wstep` (M_Wait) | each process is simulated by one with a file of its own that agrees on the pages it uses, for which C55's invariant holds; frame for the others' pages (L_WaitMulti) |
| C99 | `main` of nbd-trdump, `getcommandname`, `gettracelogname`, `getstructreplname` (M_DumpText) | lines decode uniquely (prefix code), columns, values in range by induction over the log (L_DumpText) |
| C100 | all of nbd-trplay.c with its output (M_PlayText) | text and state in step (`snd` equal, `fst` filtered), a report invariant over blocks, rounds and the log, a prefix code for decimal and hexadecimal (L_PlayText) |
| C101 | make-integrityhuge.c (M_Huge) | prefix invariant over the writes, parsing back with `parse_log`, bitwise preimage of the random number mixer (L_Huge) |
| C102 | size_autodetect (M_Size), setupexport (M_Setup) | case distinction over what the three system calls return; P_Suite runs the cases of tests/code and tests/parse on the model |
| C103 | setup_transactionlog, cleanup_transactionlog, lock_logsem, unlock_logsem (M_LogShare), the main loop's use of them (M_LogReq) | invariants over all runs of a transition system of connections, semaphores and the file |
| C104 | mkpipe, expsplice, spliceit (M_Pipe) | counting slots; the pages touched by a range in closed form |

Deviations found while proving are recorded in section 4.

## 4. Findings and disagreements

Each item is a `_refuted` theorem or is visible in the statement of a
`_partial` one; the property id says where.

* C03 zero-length member of a multi-file export breaks the member search.
* C07, C09-C11, C64 copy-on-write: reads that miss the diff file, errors of the
  diff file, 32-bit offsets of pages in the diff file.
* C15 TRIM of a multi-file export trims too much or the wrong range; C16
  WRITE_ZEROES zeroes at most the first 64 MiB of the range.
* C26 structured error lengths in host order; C27 the DF flag is advertised and
  always refused.
* C30 `writeit` treats EAGAIN as a reason to give up.
* C34, C36 masks of IPv6 entries for IPv4 clients, over-read for mapped
  addresses, assertion for AF_UNIX clients, non-numeric masks; C35 long lines.
* C37 a GO refused after the parent was asked leaves the connection limit
  unchecked for the next GO.
* C40 LIST with data, INFO/GO with contradictory lengths lose framing.
* C41 name length 2^32-1 in INFO/GO allocates nothing and writes.
* C42 duplicate names: EXPORT_NAME enters the first, GO the last.
* C44 INFO reports size 0 before an export is opened.
* C45 without fork the no-zeroes flag of one client stays on for the next.
* C46 with two exports of one name (main file and included file) GO serves the
  last, the limit of the first is applied.
* C47 numclients is never decremented: a slot once granted is used up for ever.
* C48 a reload with `oldstyle = true` dereferences a NULL GError.
* C50 the process serving a connection never frees the record (the list is
  given up without releasing its elements); a refused commit leaks a reference.
* C52 a drop inside a logged payload, or a failing write to the socket, leaves
  the process waiting for ever.
* C53 nbd-trplay replays requests that were refused and TRIMs that were not
  carried out, stops at a READ that is not in whole blocks; the log file is not
  truncated, so the end of an older session is replayed after a newer one; requests
  are logged when received and carried out in another order, so overlapping writes
  in flight together may be replayed the other way round (`C53_overlap_refuted`).
* C54 nbd-trdump shows payload lengths divided by 65536; nbd-trplay exits at the
  first structured reply.
* C55 waitfile: a write of part of a page, refused while waiting, still takes a
  place in the diff file, after which pages are mixed up; with `sparse_cow` they
  always are; over 2 GiB the page offset overflows an `int` before the switch.
* C56 a write that found no file before the switch and stores its page after it
  is acknowledged and lost; between the commit of a page and the switch the page
  cannot be read.
* C57 two concurrent copy-on-write writes end up in each other's page.
* C60 nbd-client writes before or beyond the reply buffer for an error reply of
  4096 bytes or more, reads beyond it for a short information reply, and
  overruns `s1` of `err_nonfatal` for a server text with `%m` or `%h`.
* C61 nbd-client accepts an ACK without any announced size, with `-g` a dropped
  connection (the size is then whatever the stack held), replies to options it
  never sent, and a greeting whose second magic is wrong.
* C62 nbd-client ignores the port on the command line and `persist` in nbdtab;
  any line before the entry clears the default port (NULL, port 0) and `-x`; a
  second line for a device changes host and export but not the options; `bs=0`
  in nbdtab divides by zero; with netlink no device found in nbdtab can be set up,
  without it a path relative to the working directory is opened; a comment
  after an entry, or ended by the end of the file, breaks the file; a server
  whose name starts with nbd is taken for a device.
* C63 `iphash` never assigns the path; `cidrhash` masks the socket address from
  the port bytes on instead of from the address; a second `%s` in an export name
  reads an argument that was not passed.
* C65 after one refused send the TLS proxy ends.
* C66 names over 1020 bytes are listed from beyond the entry buffer.
* C67 after a refused EXPORT_NAME the client enters transmission with bytes of
  its stack as size and flags.
* C69 after the switch of a waitfile export FLUSH syncs only the diff file; pages
  moved to the file by the switch are not synced either.
* C68 `-R` is forgotten at a reconnect, and with `-B` a reconnect ends the client.
* C70 a temporary export announces CAN_MULTI_CONN although every connection gets
  a file of its own, so connections do not see each other's writes.
* C72 the size `10G` on the command line means 10 bytes; an empty word is read
  before or after its bounds; a large size with a unit shifts into the sign bit.
* C73 `-o` does not print the limit of `-M` and prints `listenaddr = (null)`.
* C74 the default of `tlsprio` promised by the manual is overwritten with NULL when
  the file is read; the port in the file wins over the command line.
* C75 a name that does not resolve is skipped, with a list ending in a separator
  the server then runs without any socket; next to a Unix socket a taken port is
  ignored and its descriptor lost; Unix socket paths are cut at 107 bytes.
* C76 `user` without `group` keeps group 0, `group` without `user` keeps everything
  else of root.
* C77 `daemonize` calls `dup2` with its arguments the wrong way round; a relative
  `-C` is looked up in `/` at a reload; `-n -p f` removes `f` at the end.
* C78 a faulty configuration file with an export on the command line leads to a
  NULL array (the manual calls it harmless); inetd mode opens sockets as well.
* C79 `-b -512` passes the check of the block size; `-b 4294967808` is 512.
* C80 without netlink the end of an export that is not in whole blocks is lost;
  connections (-C) that announce different exports make one device; `-C two` sets
  up a device without connections; a reconnect makes only one connection.
* C81 `-c` cuts a device name at its first `p`.
* C82 `dirname` cuts the connection's file name in place when `cowdir` is not
  given: the diff file is named after the directory and the postrun command gets
  the directory; a GO that fails after its prerun leaves it without postrun; if the
  connection is then lost the postrun of the export asked for last is run, even
  when access to it was refused; nbd-server never ignores SIGPIPE, so a client that
  leaves while a reply is written ends the process without postrun and leaves the
  diff file; so do a wrong magic and stopping the server; diff files of `waitfile`
  exports are never removed; `%s` twice in a command reads a missing argument.
* C83 the result of `socketpair` is not looked at: about a thousand clients that
  connect and stay silent bring the root process to closing and keeping descriptors
  that were never set; with a higher limit `FD_ISSET` and `FD_SET` go beyond their set.
* C84 the mutex of `open_treefile` belongs to one connection, and on a writable
  tree a READ makes missing block files too. A connection that found the file
  missing writes a zero to its last byte after another connection has made it and
  has had a WRITE acknowledged: that byte is lost. A READ that opens a file just
  made finds it empty and fails. The server announces CAN_MULTI_CONN for trees.
* C85 `tlssession_new` is told not to check the server when there is no name to
  check, which is the case on Unix sockets without `-H`: `-A` is then without
  effect. An empty `-H` switches off the check of the name. `-y` alone does not
  start TLS, though the manual says that any TLS option does.
* C87 the manual says that without `cacertfile` clients are not checked and that a
  missing `certfile` is replaced by `keyfile`; neither is the case.
* C88 while a descriptor is ready at every turn of the main loop, pselect need not run
  the handlers (Linux returns the ready descriptors and leaves the signals waiting), so
  SIGTERM, SIGHUP and ended children can wait for as long as connections keep coming.
* C89 `nbd-client -d /dev/nbd0 host /dev/nbd1` disconnects nbd1; over netlink anything
  that starts with `/dev/nbd` and a number is taken for a device: `/dev/nbd0p1`
  disconnects nbd0, `/dev/nbd4294967297` nbd1; `nbd-get-status /dev/nbd-1` shows all
  devices.  nbd-get-status reads attributes without looking whether they are there.
* C90 nbd-trplay: a mistyped option shows the help and exits with status 0; a log cut
  off inside a WRITE is replayed with status 0, half of the request in the image.
* C91 copy-on-write: uninitialised heap memory reaches the client (two machines that
  differ only in memory answer the same requests differently).
* C92 filesize: a negative number is accepted and means almost 2^64 bytes; a number
  beyond 2^63 is accepted as 2^63-1.
* C94 copy-on-write does not protect an empty file: with a configured size setupexport
  opens the base read-write and extends it (nbd-server.c:2055-2056, 2103-2105), so a
  connection alone changes it.
* C95 splice defeats copy-on-write isolation: with `splice` set a WRITE goes to the
  shared base file, where the other clients of the export read it.
* C96 a copy-on-write tree without `cowdir` is served from the wrong directory:
  `dirname(client->exportname)` (nbd-server.c:2149) cuts the name in place, and every
  later open_treefile uses what is left. The client reads zeroes instead of the tree's
  contents, and each READ makes block files in the parent directory.
* C97 an export with a long path whose file cannot be opened crashes the process: the
  path is part of the text given to `err_nonfatal`, whose `strncpy` then starts beyond
  the 150 bytes of `s1` with a size that wrapped around (cliserv.c:54,
  nbd-server.c:2083-2086). A client needs only to ask for the export; with a
  virtualised name its own address decides whether the file exists.
* C98 waitfile exports announce CAN_MULTI_CONN, but every connection collects its
  writes in a diff file of its own: other connections cannot read them, read old data
  once they have switched, and an older write moved to the file later overwrites a newer
  acknowledged one (nbd-server.c:1957, 2006, 2142-2167).
* C84 a server process that ends in `open_treefile` between `open(O_CREAT)` and the
  writing of the last byte (a signal, or the write fails on a full disk and `err` ends it) leaves
  an empty block file.  `open_treefile` takes it as a complete one from then on:
  every READ of the page fails on every connection (`C84_ended_process_refuted`,
  treefiles.c:78-103).  Other pages are not harmed (`C84_page_by_page_partial`).
* C100 nbd-trplay ends without a word, or says too much. `dowriteimage` calls exit(0)
  when pwrite returns 0 (nbd-trplay.c:74-76): no line, status 0, the rest of the log
  not replayed (`C100_silent_end_refuted`).  A log cut inside a WRITE ends with "End of
  transaction log, total N blocks written." and status 0, as the log of a shorter
  WRITE does (`C100_cut_log_refuted`).  The debug line 265 prints optarg, which is
  null for -v and -h: a fourth -v is undefined (`C100_four_v_refuted`).
* C100 a log that cannot be opened is reported as "Opening disk image failed"
  (nbd-trplay.c:304, the text of line 297; `C100_wrong_file_named_refuted`).

* **make-integrityhuge.c does not compile at this commit.** It uses `req.handle` and
  `rep.handle` (lines 78-79), which nbd.h calls `cookie` (nbd.h:93, 105).  It is not
  built by default.  Its comment on the length (lines 60-61) is off: the length can be
  49998848, more than the size of the disk less 0x800
  (`C101_length_comment_refuted`).

* **A size that cannot be found counts as 2^64-1 bytes.** `size_autodetect` returns
  UINT64_MAX when none of its three ways gives a size (nbdsrv.c:267), and
  `setupexport` does not look for that value (nbd-server.c:2100, 2118).  An empty block
  device (a loop device that is not set up), a character device or a FIFO is served
  with 2^64-1 bytes (`C102_unknown_is_served_refuted`); with `filesize` set, the
  check that the file is large enough always passes (`C102_unknown_any_size`); in a
  multi-file export the next file begins one byte before it (`C102_multi_refuted`).

* **Connections that share a transaction log write over each other's records.**
  `setup_transactionlog` opens the file without O_APPEND (nbd-server.c:2216), so each
  connection writes from offset 0; the lock makes them take turns, but a record one has
  written is overwritten by the next (`C103_records_kept_refuted`).  A later connection
  writes over the log of an earlier one and leaves its tail (`C103_alone`).
* **The lock of the log stops excluding when a connection ends.**
  `cleanup_transactionlog` calls `sem_unlink` (nbd-server.c:423) although others use the
  semaphore; the next connection makes a new one, and both write at once
  (`C103_exclusion_refuted`).
* **One client can stop all others of an export with `datalog`.** The main loop keeps
  the lock from the header of a write to the end of its data (nbd-server.c:3107-3141).
  A client that sends a write header and no data blocks every other connection at its
  next request or reply (`C103_one_client_stops_all`, `C103_blocked`).  A header with the type of a write and a wrong
  magic ends the process by `err` with the lock held (nbd-server.c:3124); the semaphore
  keeps the value 0 with its name, so that later connections wait for ever at their
  first request, also after the server is started again
  (`C103_wrong_magic_refuted`, `C103_lock_recovers_refuted`), until one ends without having sent a request (that
  one removes the name), or the machine is restarted.

* **A spliced request can wait for its own pipe for ever.** `mkpipe` compares the length
  with the size of the pipe in bytes (nbd-server.c:2800), but the kernel counts slots of
  one page.  A read of 1 MiB at an offset that is not a multiple of 4096 needs 257 of
  256 slots; its thread sleeps in `splice`, the reply never comes, and the process does
  not end when the client goes (`C104_read_full`).  The data of a write takes one slot
  for each piece of a packet; in pieces of 1448 bytes no more than 370688 bytes fit, and
  the main loop sleeps (`C104_write_refuted`).  Subject to the assumption on Linux in
  section 2; not tried on a machine.
