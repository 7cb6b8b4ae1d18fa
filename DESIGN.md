# Formal model of go-dparm in Rocq (Coq 8.16.1)

## 1. Trusted base
* Coq 8.16.1 kernel (and `vm_compute`), the stdlib modules imported by `theories/Base.v`.
* Axioms: none added; `Print Assumptions` is printed below every property theorem in
  `theories/Prop_*.v` (result recorded in section 5).
* The reading of the Go source: every definition cites file:lines in /repo; no Go code was run.
* Library behaviour assumed from its documentation, not modelled from source:
  - `github.com/lunixbochs/struc`: fields in order, no padding, byte order from the tag unless
    `Options.Order` overrides it (default big-endian), short input is an error, Pack is one Write.
  - `crypto/pbkdf2`: in C01-C172 an arbitrary function with 32-byte output (an argument); C173 models the real one and proves it standard.
  - ioctl / DeviceIoControl / the drive / the clock / sysfs / procfs / registry: oracles, i.e. arbitrary
    functions of the whole history of calls; every theorem quantifies over them.
* Go runtime: panics are explicit results (`Panic`); allocation failure, SIGSEGV timing, GC and data
  races (torn reads and writes of fields) are not modelled. The code starts no goroutines; calls made by several goroutines of the
  user are modelled as interleavings of the steps that reach the system (C132–C134).

## 2. Method
* Bytes are `N` (< 256), slices are lists, functions that mutate through a pointer return the new value.
* `Base.v`: results `Ok/Err/Panic`, byte order, list update.  `Spec_*.v`: small independent specifications
  (TCG data stream grammar, packet layout, CDB layout ...), written from the standards and the API, with no
  reference to the model.  `M_*.v`: the model, one definition per Go function, no proofs.
  `P_*.v`: lemmas.  `Prop_*.v`: only the property theorems, `exact` and `Print Assumptions`.
* Environments (drive, clock, OS) are functions from the full call history to an answer, so a theorem
  quantified over them covers every adaptive behaviour.
* Where the code violates what a user would expect, the property states exactly when the expectation holds
  and a `_refuted` theorem gives the witness.

## 3. Plan per property
| ids | model | proof |
|---|---|---|
| C01-C09 | `M_TcgToken.v`: token accessors, Commit over buffer + arbitrary memory beyond | byte sweeps lifted by forallb_forall; induction over atom sequences / fuel |
| C10-C14 | `M_Buffer.v`, `M_TcgCommand.v`: aligned buffer + builder state monad | representation predicate header++payload++zeros, induction over call sequences |
| C15 | `TcgHashPassword` with pbkdf2 as argument | direct |
| C16-C18 | `M_TcgDevice.v` | case analysis, bit lemmas |
| C19-C21 | Exec over history oracle and clock | fuel induction; measure = clock |
| C22-C31 | `M_TcgSession.v` | trace reasoning, two-run relation for C28 |
| C32-C35 | `M_DriveHandle.v` discovery loop | induction over descriptor lists; fuel bound |
| C36-C41 | `M_DriveHandle.v` Init/Close/SecurityCommand | direct + induction over histories |
| C42-C43 | `M_DriveHandle.v` log page | induction over remaining size, N bit arithmetic |
| C44-C47 | `M_Buffer.v`, `M_Ata.v` | invariants over call lists |
| C48-C56 | `M_Layouts.v`, `M_Struc.v`, `M_AtaUtil.v`, `M_TcgDevice.v` | layout tables against independent offset tables (`Spec_Identity.v`), arithmetic, list induction |
| C57-C66 | `M_Cdb.v`, `M_SgDriver.v`: CDB accessors, the two-attempt SG_IO loop over an adaptive kernel | byte sweeps; closed form of the loop (`P_Sg.task_closed`), SAT-3 / SPC-4 decoders in `Spec_Sg.v` |
| C67-C73 | `M_NvmeLinux.v`: ioctl numbers, argument structures, passthrough over an adaptive kernel; composition with the drive handle | closed form of one ioctl, kernel structures in `Spec_NvmeLinux.v`; C73 by induction over attempts |
| C74 | `M_SgHandle.v`: the SG driver as the driver of a drive handle | composition of C58-C62, C65 |
| C75-C79 | `M_Strings.v`, `M_LinuxInfo.v`, `M_LinuxFactory.v`: the Linux drive factory over a world answering each open, stat, probe, directory read from the whole history; strings, regular expression and partition table reads | traces: induction over the directory listing with an invariant on the trace; language of the regular expression by induction on the name; C77 and C76 have refuted ideal claims |
| C80-C84 | `M_LinuxVolume.v`: /proc/mounts through bufio.Scanner (lines, over-long lines, late read errors), the partition regular expression, the volume map with an arbitrary iteration order | invariant `vol_ok` over the lines; the specification relations are proved functional; lookups for every permutation |
| C85-C90 | `M_WinPass.v`: the Windows ATA and SCSI pass-through drivers as byte-exact DeviceIoControl calls over an arbitrary system (history -> answer) | one closed form for the shared two-attempt loop; request headers decoded by the independent ntddscsi.h layouts of `Spec_WinPass.v` |
| C91-C99 | `M_WinNvme.v`: the two Windows NVMe drivers (miniport and storage query), and all four Windows drivers as the driver below a drive handle | byte-exact requests decoded by `Spec_WinNvme.v`; traces by induction over call sequences (C93); composition of C85-C91 with the drive handle (C96-C98) |
| C100-C103 | `M_WinInfo.v`: ReadDeviceIoControl, ReadBasicInfo, ReadStorageQuery | answers are arbitrary functions of the history; `Spec_WinInfo.v` defines size negotiation, GUID texts, layouts and descriptors independently of the parser |
| C104-C108 | `M_WinFactory.v`: the Windows drive factory over the four drivers and the drive handle | case analysis of the probing loop by induction over the driver list; Init via C34/C36/C38 lemmas; traces for handles |
| C109-C110 | `M_WinEnum.v`: EnumDrives and setupapi.go over an arbitrary system (every answer a function of the history) | loop = inductive relation over devices (both directions, fuel is no bound); histories for closing and destroying |
| C111-C116 | `M_WinEnum.v`: EnumVolumes, the volume context and the partition accessors; UTF-16 decoding is an uninterpreted function | loop = inductive relation over volumes (both directions); traces of opened and closed handles; refutations for mount points and spanned volumes |
| C117-C118 | `M_TcgOnDrive.v`: the TCG client's SecurityCommand is the drive handle's over the Linux drivers | composition of C19-C31 with C72/C74 by induction over the client's history; C118 refutation by a concrete controller |
| C119-C120 | the same over the four Windows driver kinds | C119: two-run (non-interference) induction - histories that differ only in sent bytes stay indistinguishable; C120: composition with C96 |
| C121-C125 | the Linux factory with its two real drivers over one system (M_LinuxSystem): every ioctl answer is any function of the earlier ioctls of that handle | composition of C66, C71, C72, C74 with C75/C76 (drivers and kernel answers), C33-C35 (discovery) and C18, C117 (C125) |
| C126-C128 | the session layer of C16-C31 plus OpalGetTable on any receiver (M_TcgTables) | C126/C127 from the framing lemmas of C22 and C31; C128 by a simulation between two environments whose answers agree outside the addressing bytes |
| C129-C131 | the whole Windows path: ReadBasicInfo, the four drivers' probes, Init with Level 0 discovery, then a TCG session on the opened drive | composing C101-C104 (factory), C85-C98 (request formats and results), C32-C36 (discovery) and C119/C120 (sessions over the miniport driver) |
| C132-C133 | goroutines as small-step state machines over p.Dh cells and a kernel descriptor table (M_Concurrent); every access to p.Dh and every system call is one atomic step; drivers are over-approximated by any number of ioctls | inductive invariants over all executions (ownership of descriptors); refutations by concrete schedules |
| C134 | the run as the global order of all goroutines' calls; a goroutine's environment is its view of that run (M_Exchange), so every sequential theorem about sessions applies to it unchanged; the drive is any one with a response buffer per ComID (Spec_Exchange.mailbox) | splitting the run at the goroutine's own send and last receive; refutation by a concrete run of two goroutines |
| C135 | the operations of C22–C31 over an arbitrary environment with a clock that moves; commands, receives and sleep counted in the history | composition of the bound of C20 over the commands of an operation; refutation with a clock that stands still |
| C136 | the panics of the model (`Panic`) are Go's nil-token dereferences in SendCommand | both directions: from a panic to the short answer, and from the short answer to the panic, through the frames of C24–C31 |
| C137, C138 | runs of calls on a handle (`hrun`), the answers of their discoveries (M_Rediscovery); a TCG device keeps its copied flags and sees the handle's present map (`device_now`), because Go copies a struct but shares the map in it | every answer that does not crash decomposes uniquely into descriptors (Spec_Rediscovery.lists); induction over the run; refutations by a drive whose answers change |
| C139 | `enum_drives` over a complete Linux system (M_LinuxSystem) | induction over the directory names with the growing call history; every listed handle is the result of an `open_by_path` at a recorded moment, then C121–C123 |
| C140, C141 | `win_open_by_path`, `win_enum_drives` with all four drivers; Spec_WinOpen.level0 and Spec_WinListing.reads_identity say, driver by driver, what was sent and what came back | composition of C92/C94/C90 (identity), C129/C130 (discovery), C102/C103 (layout, descriptor) and C104/C105; induction over the devices enumerated (C109) |
| C142, C143 | the drive handle over each driver (`hrun`, `sg_replay`, `nv_replay`, `win_replay`), `win_open_by_path`, `win_enum_drives`; Spec_Inspect.inspects and Spec_InspectWin.win_reads define looking and reading by the decoded packets, not by the model's constants | induction over the calls: every driver call an inspecting program causes is gentle, every gentle call decodes (C51–C71, C85–C92) to a reading request; the reset request is exhibited from the SCSI probe |
| C144 | `open_by_path` over `linux`, `device_of`, `revert_tper` over `drive_env` and `sg_drv`; Spec_LinuxSata says which commands the kernel takes and what the drive received, read off the decoded CDBs | C123 (opening), C18 (ComID), C29 (packets), C118 (SECURITY PROTOCOL over SG) composed; the refusing controller is exhibited from the device path to the false success |
| C145 | two runs of `open_by_path`, `enum_drives`, `enum_volumes` over `linux`; Spec_Steady.machine says what each path is, `steady` that a system is such a machine (descriptor numbers, addresses up to 512-alignment, and history free), `report` what DriveInfo shows | relational: the NVMe kernels see equal views, the SG kernels equal requests, so drivers agree on every call Init makes; induction over the directory for the enumeration |
| C146 | two runs of `x_open_by_path`, `win_enum_drives`, `win_enum_volumes`; Spec_SteadyWin.wmachine says what each path and volume is, `talk` which requests were made through a handle, `wsteady` that a system is such a machine (handle numbers, addresses up to 512-alignment, and history free), `lists` a device list as SetupAPI documents it, `wreport` what DriveInfo shows | relational: both systems' devices have seen equal requests (pass-through headers differ in the address bytes only, which nothing reads back), so all four drivers agree on every call Init makes; induction over the devices; `collect` relates the enumeration to OpenByPath |
| C147 | `nvme_get_log_page` and `read_smart` on handles made by `open_by_path (linux S)`; Spec_Health says what a SMART request is and when the kernel answers a full block | C73 and C56/C59 lifted over the opening calls (`nvme_opened`, `install_sg`); the stale-threshold case by following the retry without buffer; refutation by a concrete interrupted drive |
| C148 | M_Develop.v (cmd/develop/main_linux.go) over the complete Linux system: what is printed, which calls are made, how it ends | composition of C76, C77, C80, C81, C121, C147; the three crash conditions are those theorems' |
| C149 | M_DevelopWin.v (cmd/develop/main.go) over the complete Windows system | composition of C105, C109, C111, C143 and an induction over the volumes for their two ioctls |
| C150 | `read_smart` and `nvme_get_log_page` on handles made by `win_open_by_path`; Spec_HealthWin says what a SMART request is, when a block is handed over and when a request counts as successful | C104/C105 for the handle, one exchange from C85-C88, two of them through C56; C95 for the log page; refutation by a concrete drive whose error status the fallback hides |
| C151 | M_LinuxMachine: the whole program - factory, both drivers, every handle - against one machine whose answers are functions of one global history | every call of the program adds only reading ioctls: C142 for the driver parts, induction over drivers, directory entries and calls |
| C152 | the same model; Spec_LinuxMachine says when a descriptor is open on a path | invariant: live handles own distinct open descriptors; each call preserves it and touches only its own; refutation by a device nothing accepts |
| C153 | M_WinMachine: the whole program - factory, four drivers, volumes, every handle - against one machine whose answers are functions of one global history | every call adds only reading or asking requests: C143 and C149 for the parts, induction over calls |
| C154 | the same model; Spec_WinMachine says what a system handle is open on and which port a device named | invariant: live drive handles own distinct open system handles; each call preserves it and touches only its own; refutation by the miniport's port handle |
| C155 | M_LinuxMachine against M_LinuxSystem: Spec_Alone says which calls, replies and ioctls of a program belong to a handle | the kernel a handle sees is prolonged call by call (splice); drivers and handle depend on it only at the requests they make, so earlier behaviour is unchanged; induction over the program |
| C156 | the same models | the system answers at each file event what the machine answered at the history reached then; simulation of OpenByPath and of the enumeration loop |
| C157 | M_WinMachine against M_WinFactory: Spec_AloneWin says which calls, replies and actions of a program belong to a handle | every Windows driver, the probes and OpenByPath depend on the system only at the requests they make (P_AloneWin, P_AloneWin2); the system a handle sees is prolonged call by call; induction over the program; counterexample against the same machine |
| C158 | M_WinEnum, M_WinMachine | the machine with its history counted from the start of the call; every step of both enumerations commutes with that shift |
| C159 | M_ErrorText, M_SgHandle, M_WinNvme | fmt.Sprintf for the verbs used, as an interpreter of the literal format strings; every error a call on a handle can return is classified; numerals by induction on their digits |
| C160 | M_ErrorText, M_DriveHandle | the abbreviated texts of M_DriveHandle and the full ones agree on equality with "not supported" |
| C161 | M_ErrorText, M_LinuxInfo, M_LinuxFactory | induction over chains and directory listings |
| C162 | M_ErrorText, M_WinNvme, M_LinuxInfo | numerals as in C159, each format string run symbolically |
| C163 | M_LinuxMachine | every driver call, the opening and the enumerations send a bounded list of actions; the driver of a handle never changes; induction over programs; a drive on which every limit is reached |
| C164 | M_WinMachine | as C163 over the four Windows drivers; the first accepting driver ends the probing, so the opening is a maximum over drivers; drives on which every limit is reached |
| C165 | M_WinEnum | induction on the fuel of the loops, which is shown to be irrelevant beyond the length of the list; a counterexample without an end |
| C166 | `M_Utf16.v`: UTF16ToString and UTF16PtrFromString (golang.org/x/sys, package syscall, both before and since go 1.21); Spec_Utf16 = Unicode's arithmetic definition of UTF-8 and UTF-16 | bit operations against div/mod; induction over code points; refutations for unpaired surrogates and for byte strings that are not UTF-8 |
| C167, C168 | M_WinEnum with the conversion filled in (`x_text`) | loop = inductive relation visits over the listed devices; the volumes' names read off the trace of C111; C115 composed with injectivity of the conversion |
| C169 | `M_LogPages.v` over M_Struc and M_Layouts: decoding the exported log page structures, their size in memory (Go's alignment rule) | places table of NVMe 1.3 against the structure (as C45 - C49); composition with C147 |
| C170 | `M_LogPages.v`, M_Layouts, discovery results of C121 - C123 | places tables of the TCG specifications against the structures; composition with C122; refutation for the two structures that are one byte too long |
| C171 | `M_BasicCalls.v` (ReadBasicInfo call by call) over the machine of C151 | a ledger of descriptors over the one history: segments of the history moved by each function, added up by induction over the program. Not modelled: the garbage collector, whose finalizer may close an unreachable os.File at an unspecified time; a diskfs.Open that fails is counted as obtaining nothing |
| C172 | the machine of C153 | a ledger of system handles over the one history: the balance of each function's segment, added up by induction over the program; no hypothesis on the system (handles need not be fresh). Not modelled: that CloseHandle may fail |
| C173 | the code tcg/utils.go:18 calls, from x/crypto v0.27.0 and Go's standard library (`M_Sha1.v`; not in /repo, modelled from its published text): the digest with its 64-byte buffer, the block function with its 16-word window, HMAC, pbkdf2.Key | against FIPS 180-4, RFC 2104 and RFC 8018 written out in `Spec_Sha1.v`: representation invariant of the streaming digest, window invariant over the rounds, induction over iterations and blocks; then C27, C29, C30 with the real key derivation |
| C174 | as C173 | HMAC keys are zero-filled; then C28 |
| C175 | the complete Linux system of C121 and C144 with device_opal.go:157 on top | C125's and C144's chains with C117's password lemma: classification of GetDefaultPassword's histories (`P_Password.v`), then the drivers' command lemmas |
| C176 | the complete Windows system of C129 with device_opal.go:157 on top | as C131, with the same classification |
| C177 | session.go:60 (Start), :140 (Authenticate) and utils.go:9 as in C27, C30; a small spec of what a drive reads in those two packets and of a drive that guards an authority by PINs | one-reading lemma for the packet; C27/C30 give the bytes, C22 the acceptance; a concrete guarding drive in Ex_Challenge |
| C178 | `M_TcgProgram.v`: programs of calls on one TCG device with any number of sessions (session.go, device_opal.go as before) | a drive with one Admin SP session specified by three conditions on Exec (`Spec_OneSession.v`); invariant "a session is open" over the calls of the program; a concrete such drive in Ex_OneSession. Excluded by the specification: session timeouts, resets of the ComID |
| C179 | tcg/session.go, device.go, device_opal.go, response.go as before (`M_TcgSession.v`, `M_TcgDevice.v`) | what a conforming drive's replies look like (`Spec_Conform.v`: SyncSession, empty result, one cell, status list, polling) is written with atoms; the library's reply parser is run on every such reply (liveness direction of C22-C31); the PSID equivalence combines it with C177. A concrete drive meeting every hypothesis is in Ex_Conform |
| C180 | the complete Linux NVMe chain of C125 | a by-the-book controller is specified by its answers to ioctls (`Spec_NvmeConform.v`); the bridge lemma turns such a controller into a by-the-book drive of C179 (one ioctl per security command, C117; delivery, C72), then C179; a concrete machine with such a drive in Ex_NvmeConform |
| C181 | the complete Linux SATA chain of C144 | as C180, with SECURITY PROTOCOL IN/OUT requests (`Spec_SataConform.v`) and C74, C144's lemmas; a concrete machine in Ex_SataConform |
| C182 | the complete Windows miniport chain of C131, C176 | as C180, with NVME_PASS_THROUGH requests on the SCSI port (`Spec_WinConform.v`) and C96, C120, C129; a concrete machine in Ex_WinConform |
| C183 | M_TcgSession (Start, Authenticate) over an arbitrary drive, and over the chains of C180 (Linux NVMe), C181 (Linux SATA) and C182 (Windows miniport) | the drive's boolean by the book in `Spec_Verdict.v`; C179_start and the lemmas of C30 compose one exchange after the other; the bridges of C180, C181 and C182 lift it to the ioctls, SG_IO and control requests; concrete machines in Ex_Verdict, Ex_VerdictSata, Ex_VerdictWin |
| C184 | M_TcgSession (Start, Revert) over an arbitrary drive, and over the chains of C180, C181 and C182 | the owner PIN by the book in `Spec_SidConform.v`; C179_revert and C179_revert_refused at the presented challenge; the length of the hashed challenge (34) excludes a 32-byte PIN; C173 puts in the standard key; the bridges of C180, C181, C182 lift it; concrete drives with a short and a long PIN in Ex_SidConform (NVMe), Ex_BookSata, Ex_BookWin |
| C185 | M_TcgSession (Start, OpalGetTable) and the token accessors over an arbitrary drive, and over the chains of C180, C181 and C182 | rows, refusals and sequences of reads by the book in `Spec_TableConform.v`, `Spec_TableWin.v`; one read by framing (C20) and C22/C24, any number by induction on the drive's conversation, the session opened by C179_start; the bridges of C180, C181, C182 lift it by induction over the requests; a concrete drive with a row, a refusal and the row again in Ex_TableConform (NVMe), Ex_BookSata, Ex_BookWin |
| C186 | M_TcgProgram (programs of sessions, reads, reverts) over M_TcgOnDrive and the Windows SCSI, ATA and storage-query drivers of M_WinPass/M_WinNvme | "a drive that answers only packets" in `Spec_Deaf.v`; every exchange gives zeros (C98) or asks (C97, C85, C86), so every answer is an empty packet, which SendCommand rejects (C19); induction over the program with the history as invariant; from the handle by C127's opening; a drive that would open a session to anybody giving it a packet, and a program of nine calls, in Ex_Deaf |
| C187 | M_TcgProgram on M_TcgOnDrive inside the programs of M_LinuxMachine and M_WinMachine; the client's SecurityCommand calls are calls of the program, any other activity between two of them (`Spec_TcgAlone.v`: `program_of`, `program_env`); other activity falls between SecurityCommand calls, not inside one | the client's behaviour depends only on the answers to the prefixes of its dialogue (induction over polls, calls and program, `P_TcgLocal.v`); C155/C157 give the alone system with the same replies, hence the same answers to every prefix; two NVMe drives used in turn while one is reverted, in Ex_TcgAlone and Ex_TcgAloneWin |
| C188 | M_LinuxMachine's programs and M_TcgProgram on one of their handles (`Spec_Apart.v`: `undisturbed`: answers to ioctls on a descriptor, and buffer addresses, are functions of what was done on that descriptor since the opening); Linux only; the addresses premise is an assumption about the Go runtime's allocator that a real run need not meet byte for byte; the handle is not closed within the program considered | every event of the rest of the program acts on a descriptor it opened itself or on that of another live handle (`P_ApartElse.v`); two runs that agree on the descriptor's own events reply alike (`P_ApartRun.v`); composed with C180 for the PSID; two NVMe drives used in turn, Ex_Apart |

## 4. Layout of the development
`theories/Base.v`; then per area `M_*` (model), `Spec_*` (independent specification), `P_*` (lemmas), `Prop_*` (the property
theorems, each followed by `Print Assumptions`), `Ex_*` (concrete non-trivial cases meeting the hypotheses), `Inst_*` (the theorems with
many hypotheses applied to such cases, all premises supplied together).
`seeded/` holds the wrong programs tried (`batch*.py`) and `LOG.jsonl` the outcome of each.

## 5. Assumptions
`Print Assumptions` prints "Closed under the global context" for every theorem named in MANIFEST.json: no axiom, neither our
own nor the standard library's, is used.

## 6. What is and is not modelled
Every function of the library is modelled except those listed below; each model definition cites the lines it stands for.

| Go files | Model |
|---|---|
| tcg/token.go, response.go | `M_TcgToken.v`, `M_TcgDevice.v` |
| common/errors.go, tcg/errors.go, all messages | `M_ErrorText.v` |
| tcg/command.go, utils.go | `M_TcgCommand.v` (password hashing takes PBKDF2 as a parameter), `M_Sha1.v` (PBKDF2 itself) |
| tcg/device.go, device_opal.go, device_enterprise.go, session.go, drive_handle.go, types.go | `M_TcgDevice.v`, `M_TcgSession.v`, `M_TcgTables.v`, `M_TcgProgram.v`, `M_TcgOnDrive.v` |
| common/drive_handle.go, driver.go, types.go, nvme/* | `M_DriveHandle.v` |
| internal/* | `M_Buffer.v`, `M_Struc.v`, `M_LinuxInfo.v` (MBR identifier) |
| ata/types.go, ata_util/utils.go, nvme/types.go | `M_Ata.v`, `M_AtaUtil.v`, `M_Layouts.v`, `M_LogPages.v`, `M_Strings.v` |
| scsi/types.go, plat_linux/types_*.go, plat_win/cdb_types.go, ata_passthu_types.go | `M_Cdb.v` |
| plat_linux/sg_*.go | `M_SgDriver.v`, `M_SgHandle.v` |
| plat_linux/nvme_*.go, ioctl_utils.go | `M_NvmeLinux.v` |
| plat_linux/drive_factory.go, utils.go, volume.go | `M_LinuxInfo.v`, `M_BasicCalls.v`, `M_LinuxFactory.v`, `M_LinuxVolume.v`, `M_LinuxSystem.v`, `M_LinuxMachine.v` (all handles of a program on one machine) |
| plat_win/ata_driver.go, scsi_driver.go | `M_WinPass.v` |
| plat_win/nvme_*.go, windows_nvme_*.go | `M_WinNvme.v` |
| plat_win/utils.go, drive_factory.go, storage_*.go | `M_WinInfo.v`, `M_WinFactory.v` |
| plat_win/setupapi.go, volume.go | `M_WinEnum.v`, `M_WinMachine.v` (all handles of a program on one machine) |
| calls of windows.UTF16ToString, UTF16PtrFromString, strings.TrimSpace | `M_Utf16.v`, `M_Utf8.v` |
| cmd/develop/main_linux.go, main.go | `M_Develop.v`, `M_DevelopWin.v` |

Not modelled:
* test/ helpers, NewSystemDriveFactory and the New*Driver constructors (they return empty structures), the
  Samsung driver (its only method returns "not supported yet" and nothing calls it). The size GetSizeOf_DRIVE_LAYOUT_INFORMATION
  computes (plat_win/storage_win_types.go:48-56) is the constant 40 in `layout_info`.
* In the models of the drivers an error is identified by its text with the verbs unexpanded and its arguments; `M_ErrorText.v` gives the full
  texts (C159 - C162), with the part of Go's fmt.Sprintf the library uses modelled from its source.
* The Go runtime: garbage collection, allocation failure, goroutine scheduling. Slices are values plus explicit aliasing where the code relies
  on it (buffers a driver writes into). Memory safety of unsafe.Pointer arithmetic is modelled only where the code can leave its buffer
  (marked at the definition).
* External code: pbkdf2.Key (an arbitrary function giving 32 bytes up to C172; `M_Sha1.v`, from its published text, in C173, C174), lunixbochs/struc (its documented byte layout), encoding/json, go-diskfs's GPT and
  MBR parsing (arbitrary answers), UTF-16 conversion (an arbitrary function in C01 - C165; `M_Utf16.v`, from the sources of package syscall, in C166 - C168), the operating systems (arbitrary functions from the history of
  calls to answers, so every behaviour including faults and inconsistent answers is covered).

The trusted base is therefore: Coq 8.16.1's kernel; the correspondence of each cited Go function with its definition (by reading);
the layouts in `Spec_*` (transcribed from the TCG, SAT, SPC, NVMe and Windows documents); and the two language facts used
throughout - integer conversions truncate, and slicing or indexing out of range panics.
