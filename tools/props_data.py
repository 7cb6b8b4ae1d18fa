# ---------------------------------------------------------------- TCG wire codec
p("C01","Number atoms survive the wire",
"For every unsigned 64-bit value v, the bytes TcgCommand.AddNumberToken(v) appends are one complete TCG atom of the smallest width class (1 byte below 64, otherwise header + 1, 2, 4 or 8 big-endian bytes), and when a TcgResponse containing those bytes is committed it exposes exactly one token whose GetUint64 returns v, with GetUint32/16/8 returning v modulo 2^32/2^16/2^8.",
"every uint64 value (2^64 inputs)","64-bit input space with five width classes and their boundaries",
"tcg/command.go:AddNumberToken","tcg/token.go:GetUint64","tcg/token.go:GetUint32","tcg/token.go:GetUint16","tcg/token.go:GetUint8","tcg/response.go:Commit")
p("C02","Byte-string atoms survive the wire",
"For every text of 1 to 2047 bytes, TcgCommand.AddStringToken(text) without an explicit length appends one complete TCG byte-string atom; committing a response that carries it exposes one token of byte-string type whose GetString and GetBytes both return exactly text.",
"every byte string of length 1..2047","unbounded content, two encodings and the 15/16, 255/256 and 2047 boundaries",
"tcg/command.go:AddStringToken","tcg/token.go:GetString","tcg/token.go:GetBytes","tcg/token.go:Type","tcg/response.go:Commit")
p("C03","Strings outside 1..2047 bytes are not transmitted faithfully",
"AddStringToken reports success for the empty string and for every text of 2048 bytes or more, yet the empty string is written as an atom that decodes to the one-byte string 00, and a text of 2048 bytes or more leaves the command completely unchanged. Hence 'success means the text is decodable from the command' holds for a text exactly when its length is in 1..2047.",
"every byte string of length 0 or >= 2048","needs all lengths; the failure is silent (nil error)",
"tcg/command.go:AddStringToken")
p("C04","A response made of well-formed atoms is split into exactly those atoms",
"For every sequence of well-formed TCG atoms and control tokens (tiny, short, medium, long, control byte) whose concatenation fits in the 1992-byte payload area, committing a response whose sub-packet length is the length of that concatenation succeeds and GetToken(i) is the i-th element of the sequence with the empty atoms (0xFF) removed; GetTokenCount is their number.",
"every finite sequence of well-formed atoms, every header content, every trailing buffer content, every memory content after the buffer","unbounded sequences of variable-length items",
"tcg/response.go:Commit","tcg/response.go:GetToken","tcg/response.go:GetTokenCount")
p("C05","Commit on arbitrary drive output: tiling, bound and rejection",
"For every 2048-byte response buffer: Commit terminates; it fails (and leaves previously committed tokens in place) exactly when the sub-packet length field exceeds 1992; otherwise it succeeds, every token is non-empty, there are at most sub-packet-length tokens, and the tokens together with the dropped empty atoms are consecutive slices of memory starting at offset 56 and reaching at least the end of the sub-packet.",
"every 2048-byte buffer content and every memory content beyond it","adversarial or faulty drive output: 2^16384 buffers",
"tcg/response.go:Commit")
p("C06","Commit only exposes received bytes exactly when the last atom fits",
"The tokens exposed by Commit depend on memory outside the 2048-byte response buffer exactly when some atom that starts inside the sub-packet runs past the end of the buffer; such buffers exist (an atom header near the end of the buffer), so a drive can make the library expose adjacent process memory.",
"every buffer content and every pair of memory contents after the buffer","a non-interference statement over all memories",
"tcg/response.go:Commit")
p("C07","Integer accessors decode unsigned short and tiny atoms big-endian and reject the rest",
"For every token: GetUint64 fails exactly when the token is a tiny or short atom with its sign bit set, or a medium, long or control token; otherwise it returns the big-endian value of the data bytes modulo 2^64 (tiny: low six bits). GetUint32/16/8 fail in the same cases and otherwise return that value truncated, so a value too large for the narrow accessor is silently changed.",
"every non-empty token byte sequence","all leading bytes and all lengths",
"tcg/token.go:GetUint64","tcg/token.go:GetUint32","tcg/token.go:GetUint16","tcg/token.go:GetUint8")
p("C08","Token type classification",
"For every non-empty token, Type agrees with the TCG data-stream encoding table (short/medium/long atoms: byte string, signed or unsigned; otherwise the control byte itself), except tiny atoms: Type reports signed exactly when the atom is unsigned and vice versa. Hence Type and GetUint64 disagree on every tiny atom.",
"every token (all 256 leading bytes)","exhaustive over leading bytes and independent of the remaining ones",
"tcg/token.go:Type","tcg/token.go:GetUint64")
p("C09","GetString and GetBytes return precisely the atom's data bytes",
"For every token, GetString and GetBytes fail exactly on tiny atoms; on short, medium and long atoms whose header is complete they return the token without its 1-, 2- or 4-byte header, both returning the same bytes; on control tokens they succeed with an empty result; a truncated header makes them panic.",
"every non-empty token","all leading bytes, all lengths",
"tcg/token.go:GetString","tcg/token.go:GetBytes")
# ---------------------------------------------------------------- TCG command builder
p("C10","The command builder appends and never overwrites",
"Starting from NewTcgCommand + Reset/Init, for every sequence of AddToken / AddRawToken / AddStringToken / AddNumberToken calls: the buffer stays 61440 bytes, bytes 0..55 (the header) are untouched, bytes already appended are never modified, the unwritten tail stays zero, and while everything fits the payload is exactly the concatenation, in call order, of the individual encodings. When it does not fit, the payload is a prefix of that concatenation with total size at most 61384.",
"every finite sequence of builder calls with every argument","unbounded call sequences, overflow at any point",
"tcg/command.go:Init","tcg/command.go:AddToken","tcg/command.go:AddRawToken","tcg/command.go:AddStringToken","tcg/command.go:AddNumberToken","internal/aligned_buffer.go:Write","internal/aligned_buffer.go:WriteByte")
p("C11","Complete produces consistent nested length fields",
"For every command whose payload plus trailer fits: after Complete the sub-packet length (big-endian at 52) is the payload length including the status trailer F9 F0 00 00 00 F1, the payload is zero-padded to a multiple of four, packet length (at 40) is the padded payload plus 12, ComPacket length (at 16) is packet length plus 24, and every other byte of the header and payload is unchanged. Complete(false) does the same without the trailer.",
"every payload that fits, every prior header content","all payload lengths mod 4 and all contents",
"tcg/command.go:Complete")
p("C12","The transmitted slice is 512 bytes, whatever was built",
"After every successful Complete, GetCmdSize is 512 no matter how much was appended; therefore the bytes handed to the drive contain the whole framed command exactly when the ComPacket (20 + its length field) is at most 512 bytes, i.e. when the payload padded to four is at most 456 bytes. Larger commands are cut without an error.",
"every completed command","all payload sizes",
"tcg/command.go:GetCmdSize","tcg/command.go:Complete","tcg/device.go:Exec")
p("C13","Header setters touch only their own field",
"SetComId writes the big-endian ComID followed by two zero bytes at offsets 4..7, SetTSN/SetHSN write four bytes at 20..23 / 24..27, none changes any other byte of the command or its write position, and they commute with each other for all argument values.",
"every command state and every argument","all values and orders",
"tcg/command.go:SetComId","tcg/command.go:SetTSN","tcg/command.go:SetHSN")
p("C14","Loop-back: what the builder encodes the parser decodes",
"For every sequence of builder calls whose arguments are control tokens, UIDs, methods, numbers and strings of 1..2047 bytes, with Complete's trailer and total payload at most 1992 bytes: copying the completed command's bytes into a response buffer and committing it yields exactly one token per encoded item, in order, with the given values (numbers by GetUint64, strings and UIDs by GetBytes).",
"every finite sequence of typed builder calls","composition of encoder and decoder over unbounded sequences",
"tcg/command.go:Complete","tcg/command.go:AddToken","tcg/response.go:Commit")
p("C15","Password preparation",
"TcgHashPassword returns D0, a one-byte length and that many bytes; with noHash the bytes are the first 32 bytes of the password, otherwise the 32-byte PBKDF2 output computed from the first 32 bytes of the password and the drive serial. In both modes the result depends only on the first 32 bytes of the password, so distinct passwords sharing them are indistinguishable.",
"every password, serial and key-derivation function with 32-byte output","unbounded strings; statement over all derivation functions",
"tcg/utils.go:TcgHashPassword")
# ---------------------------------------------------------------- TCG device
p("C16","Device selection from the discovery flags",
"NewTcgDevice never fails; it returns an Opal v1 device if the Opal 1.00 flag is set, else Opal v2 if the 2.00 flag is set, else Enterprise if that flag is set, else the generic device; GetDeviceType reports the choice, and IsAnySSC is true exactly for the two Opal devices (not for Enterprise).",
"every discovery record","all flag combinations and raw feature maps",
"tcg/device.go:NewTcgDevice","tcg/device.go:IsAnySSC","tcg/device_opal.go:IsAnySSC","tcg/device_enterprise.go:GetDeviceType")
p("C17","Locking status queries read one documented bit",
"For every discovery record, IsLockingEnabled, IsLocked, IsMediaEncryption, IsMBREnabled and IsMBRDone return bits 1, 2, 3, 4 and 5 of byte 4 of the stored Locking descriptor when the locking flag is set and the descriptor is present, and false otherwise; IsLockingSupported is the locking flag. They panic or depend on bytes outside the descriptor only if it is shorter than five bytes.",
"every discovery record","all descriptor contents",
"tcg/device.go:IsLockingEnabled","tcg/device.go:IsLocked","tcg/device.go:IsMBREnabled","tcg/device.go:IsMBRDone","tcg/device.go:IsMediaEncryption","tcg/device.go:IsLockingSupported")
p("C18","ComID queries",
"GetBaseComId / GetNumComIds return the big-endian 16-bit fields at offsets 4 / 6 of the descriptor of the selected SSC (0x0200, 0x0203 or 0x0100) and 0 when that descriptor is absent or the device is generic, whatever other descriptors are present.",
"every discovery record","all descriptor contents and maps",
"tcg/device_opal.go:GetBaseComId","tcg/device_opal.go:GetNumComIds","tcg/device_enterprise.go:GetBaseComId","tcg/device.go:GetBaseComId")
p("C19","Exec's I/O protocol",
"For every drive behaviour and every clock: Exec on a device without SSC performs no I/O and fails with 'not supported'; otherwise it issues exactly one send of the first GetCmdSize bytes of the command with the given protocol, the base ComID and a 5 s timeout; if that fails it returns that error and never receives; otherwise it only issues 2048-byte receives with the same protocol and ComID, and keeps polling exactly while the drive answers Outstanding != 0 and MinTransfer == 0. On success the exposed tokens are those of the last received buffer.",
"every adaptive drive behaviour, clock and command","the drive is an adversarial, history-dependent environment",
"tcg/device.go:Exec")
p("C20","Exec terminates within the deadline",
"If every poll round advances the clock by at least 25 ms, Exec performs at most 402 receives for every drive behaviour, and it returns; it reports 'timeout' only when more than 10 s had passed before a receive, and never reports a response received after that point as success.",
"every drive behaviour and every clock advancing at least 25 ms per poll","liveness over unbounded schedules of an adversarial drive",
"tcg/device.go:Exec")
p("C21","Enterprise devices can never perform a TCG operation",
"For every Enterprise device, session, command, drive and clock: Exec, SendCommand, Session.Start, Authenticate, RevertTPer, EnterpriseGetTable and GetDefaultPassword return the error 'not supported' and perform no I/O at all.",
"every Enterprise discovery record and drive behaviour","negative statement over all drive behaviours",
"tcg/device_enterprise.go:TcgDeviceEnterprise","tcg/device.go:Exec","tcg/session.go:SendCommand")
# ---------------------------------------------------------------- TCG session
p("C22","SendCommand success means an accepted method status",
"SendCommand returns a nil error exactly when Exec succeeded, the three length fields of the response are non-zero, and either the first token is EndOfSession or the response ends with StartList, s, x, y, EndList (five last tokens) where s is an unsigned tiny/short atom whose value is 0 modulo 256. Otherwise it returns an error (or panics, see C23). In particular a method status that is a non-zero multiple of 256 is accepted as success.",
"every drive behaviour, session state and command","all responses an adversarial drive can give",
"tcg/session.go:SendCommand")
p("C23","SendCommand panics on short responses",
"Given a successful Exec with non-zero length fields, SendCommand panics exactly when the response has one to four tokens and the first is not EndOfSession.",
"every drive behaviour, session state and command","all response shapes",
"tcg/session.go:SendCommand","tcg/response.go:GetToken")
p("C24","A failing method status is reported as that status",
"If the response is well framed and its method status atom has value s with 1 <= s <= 255, SendCommand returns the response together with a TcgError whose Status is s; the session state is unchanged by SendCommand in every case.",
"every status value and every response with that status","all values and surrounding tokens",
"tcg/session.go:SendCommand","tcg/errors.go:TcgError")
p("C25","Close never ends a session",
"For every history of session calls (Start, Authenticate, SendCommand, SetTimeout, SetNoHashPassword, NoAutoClose, Close) on a session from NewTcgSession, Close performs no I/O: no EndOfSession is ever sent and the drive-side session is left open.",
"every finite history of session calls and every drive behaviour","invariant over unbounded histories",
"tcg/session.go:Close","tcg/session.go:Start","tcg/session.go:NewTcgSession")
p("C26","Session numbers are echoed on the wire",
"After a Start that returns nil whose response carried host and TPer session numbers h and t (tokens 4 and 5), every later command sent through the session (until the next Start) carries h mod 2^32 big-endian at packet offset 24..27 and t mod 2^32 big-endian at 20..23, and the device's base ComID at 4..5. Before any Start all of them are zero.",
"every drive response, every later command","byte-order handling for all 32-bit values and histories",
"tcg/session.go:Start","tcg/session.go:SendCommand","tcg/command.go:SetHSN","tcg/command.go:SetTSN")
p("C27","Start sends exactly one, fully determined, StartSession",
"On an Opal device Start transmits exactly one command: StartSession on the session manager with host session number 105, the given SP, write = 1, and, iff the challenge is non-empty, name/value pairs 0 = challenge and 3 = signing authority; its payload is given byte for byte by the specification, for every SP, challenge, authority and session mode.",
"every SP, challenge, authority, mode, drive behaviour","all argument combinations",
"tcg/session.go:Start")
p("C28","With hashing on, only the derived key of a password reaches the drive",
"With password hashing enabled (the default), for any two non-empty passwords with the same PBKDF2 result the complete sequence of bytes sent by Start, Authenticate and RevertTPer(non-PSID) and its results are identical for every drive: the transmitted bytes depend on the password only through its derived key.",
"every pair of passwords, every drive behaviour and clock","a two-run (non-interference) property",
"tcg/session.go:Start","tcg/session.go:Authenticate","tcg/utils.go:TcgHashPassword")
p("C29","No Revert without a successfully started session",
"For every drive behaviour, Opal RevertTPer sends the Revert method at most once, only after a StartSession exchange that returned success, authenticated as PSID with the unhashed password when isPsid and as SID with the hashed password otherwise; if Start fails, its error is returned and nothing further is sent. A nil result implies the drive answered the Revert with success.",
"every drive behaviour, password and mode","destructive command: must hold for every drive response",
"tcg/device_opal.go:revertTPer")
p("C30","Authenticate treats the drive's boolean backwards",
"Authenticate returns nil exactly when its SendCommand succeeded and the second response token is an unsigned integer 0 (mod 256), i.e. when a TCG drive answers FALSE; whenever the drive answers TRUE (1) it returns 'authentication failed: 1'.",
"every drive behaviour, authority and challenge","all responses",
"tcg/session.go:Authenticate")
p("C31","GetDefaultPassword reads the MSID and nothing else",
"On an Opal device GetDefaultPassword sends exactly a StartSession on the Admin SP without credentials and, iff that succeeds, one Get on the C_PIN MSID row for column 3; on success the returned string is the data of the fifth token of the Get response, and every failure of either step is returned as an error with an empty string.",
"every drive behaviour","all drive responses at both steps",
"tcg/device_opal.go:getDefaultPassword","tcg/device_opal.go:opalGetTable")
# ---------------------------------------------------------------- Discovery / drive handle
p("C32","Level 0 discovery reports exactly the listed features",
"If the drive returns a Level 0 buffer whose descriptors (each 4 + length bytes, starting at offset 32) tile the range up to its length field within 2048 bytes, TcgDiscovery0 succeeds, sets support to 1, newly sets exactly the flags whose feature code occurs, and maps each feature code to the bytes of its last descriptor, leaving other map entries and flags unchanged.",
"every well-formed descriptor list and every previous drive state","unbounded descriptor sequences",
"common/drive_handle.go:TcgDiscovery0")
p("C33","Discovery header is taken as 32 bytes instead of 48",
"On a drive that follows the TCG layout (48-byte header), TcgDiscovery0 yields the flags of the real descriptor list when the 16 vendor-specific bytes 32..47 are zero, in addition to a spurious entry for feature code 0; there are conforming buffers with non-zero vendor bytes for which it reports features the drive does not list or misses listed ones.",
"every conforming descriptor list after a zero vendor area; witnesses otherwise","all descriptor lists",
"common/drive_handle.go:TcgDiscovery0","tcg/types.go:Discovery0Header")
p("C34","Discovery on arbitrary drive output",
"For every 2048-byte answer: TcgDiscovery0 terminates; it fails with a length overflow exactly when the length field exceeds 2048; it panics exactly when some descriptor that starts before the length bound and is reached by the walk extends past byte 2048 of the buffer; otherwise it succeeds.",
"every drive answer","adversarial 2048-byte buffers",
"common/drive_handle.go:TcgDiscovery0")
p("C35","Discovery support flag",
"TcgDiscovery0 sets the support value to -1 exactly when the security command fails with the text 'not supported', to 0 when it fails with any other error, and to 1 when it succeeds; on failure no feature flag or raw feature changes and the error is returned.",
"every driver behaviour","all driver errors",
"common/drive_handle.go:TcgDiscovery0","common/drive_handle.go:SecurityCommand")
p("C36","ATA identity extraction",
"For every 512-byte IDENTIFY block, Init reports Model, Serial and FirmwareRevision as the word-swapped bytes of words 27-46, 10-19 and 23-26 without leading or trailing space, tab, CR, LF or NUL, RawSerial as the 20 swapped bytes untrimmed, SmartEnabled as the conjunction of bit 0 of words 82 and 85, and the block itself as the raw identity.",
"every 512-byte identify block","2^4096 inputs",
"common/drive_handle.go:Init","internal/utils.go:AtaSwapWordEndian","ata/types.go:IdentityDeviceData")
p("C37","SSD decision",
"For every ATA identify block, IsSsd is true exactly when the nominal form factor (word 168 bits 0-3) is 5 or the rotation rate (word 217) is 0 or 1; the weight is the number of these conditions that hold. For every NVMe identify block IsSsd and SmartEnabled are true and the weight is 0.",
"every identify block","all words",
"common/drive_handle.go:Init")
p("C38","NVMe identity extraction",
"For every NVMe identify block of at least 4096 bytes Init reports Serial, Model and FirmwareRevision as the trimmed bytes 4..23, 24..63 and 64..71 and RawSerial as bytes 4..23; for every shorter block, ATA or NVMe, Init fails and performs no discovery I/O.",
"every identify block of every length","all contents and lengths",
"common/drive_handle.go:Init","nvme/types.go:IdentifyController")
p("C39","Close is idempotent and final",
"For every history of drive-handle calls, the underlying driver is closed at most once, exactly when Close is called at least once on a handle with a driver; after Close, SecurityCommand returns 'not supported' and task-file and log-page calls return 'not supported in this driver', and no driver call of any kind happens any more.",
"every finite history of calls, every driver","invariant over unbounded histories",
"common/drive_handle.go:Close","common/drive_handle.go:SecurityCommand","common/drive_handle.go:AtaDoTaskFileCmd","common/drive_handle.go:NvmeGetLogPage")
p("C40","SecurityCommand fallback discipline",
"SecurityCommand calls the driver's security command exactly once; if it succeeds nothing else is called and nil is returned; if it fails, an ATA driver gets exactly one TRUSTED SEND/RECEIVE (DMA variant iff dma) task file with protocol, ComID and sector count encoded and its result is returned; else an NVMe driver gets exactly one SECURITY SEND/RECEIVE admin command and its result is returned; else the original error is returned.",
"every driver behaviour and every argument","all drivers and arguments",
"common/drive_handle.go:SecurityCommand")
p("C41","Transfer length in the ATA fallback",
"The sector count in the fallback task file represents the buffer length exactly when the length is a multiple of 512 below 131072; every other length is sent with a different transfer size (lengths of 131072 and more wrap modulo 256 sectors, remainders are dropped).",
"every buffer length","all lengths",
"common/drive_handle.go:SecurityCommand")
p("C42","Log pages by admin passthrough",
"For every driver behaviour and every non-negative size, NvmeGetLogPageByAdminPassthru issues the same Get Log Page command again until one succeeds, at most ceil(size/4096) times (none for size 0); it returns a buffer of exactly the requested size, with nil error exactly when the size is 0 or some attempt succeeded, and otherwise the last attempt's error.",
"every driver behaviour and size","retry loop against an arbitrary driver",
"common/nvme/default.go:NvmeGetLogPageByAdminPassthru")
p("C43","Get Log Page command encoding",
"For every size that is a multiple of 4 with 4 <= size <= 2^34, the command's NUMDU:NUMDL field pair is size/4 - 1 (zero-based dword count), the log identifier (below 256), the RAE bit and the namespace are in their NVMe positions and the reserved and offset fields are zero; for sizes 1..3 the count field is 0xFFFFFFFF.",
"every size, log id, nsid","all sizes",
"common/nvme/default.go:NvmeGetLogPageByAdminPassthru")
# ---------------------------------------------------------------- buffers
p("C44","Aligned buffers: safety invariant",
"For every sequence of calls (Write, WriteByte, Read, Reset, ResetRead, ResetWrite, SetWritePos, SetReadPos, SetLimit within capacity) on a buffer from NewAlignedBuffer(align,size): the region handed out starts at an address divisible by align, lies inside the allocation, keeps its size, and no call modifies bytes outside [old write position, new write position) except Reset, which zeroes the bytes below the limit.",
"every finite call history, every allocation address, align >= 1, size","unbounded histories and all addresses",
"internal/aligned_buffer.go:NewAlignedBuffer","internal/aligned_buffer.go:Write")
p("C45","Aligned and wrapped buffers: FIFO read-back",
"Any sequence of writes that fits, followed by any sequence of reads, returns the written bytes in order: the concatenation of the read results is the corresponding prefix of the buffer, positions advance by the returned counts, and both end-of-buffer conditions return EOF with count 0.",
"every finite sequence of writes then reads","unbounded histories",
"internal/aligned_buffer.go:Read","internal/aligned_buffer.go:Write","internal/wrapped_buffer.go:Read","internal/wrapped_buffer.go:Write")
p("C46","Write at the boundary",
"Write(p) stores exactly min(len p, limit - position) bytes and returns that count; it returns EOF exactly when that count is zero (also for an empty p) and a nil error otherwise, so a short write is reported only by its count; with the position beyond the limit it panics.",
"every buffer state and every p","all states",
"internal/aligned_buffer.go:Write","internal/wrapped_buffer.go:Write")
p("C47","ATA byte-order helpers",
"AtaSwapWordEndian swaps each adjacent byte pair of an even-length block, keeps the length, is its own inverse, and panics exactly on odd lengths; AtaSwap16 and AtaSwap32 reverse the byte order and are involutions on 16- and 32-bit values.",
"every byte block and every 16/32-bit value","unbounded",
"internal/utils.go:AtaSwapWordEndian","internal/utils.go:AtaSwap16","internal/utils.go:AtaSwap32")
# ---------------------------------------------------------------- identify data, SMART, ata_util
p("C48","Every ATA identify field",
"For every 512-byte IDENTIFY block the decoded identity Init stores has, for every field, the little-endian value of the words ACS assigns to it, the three texts word-swapped, and no other field; the sanitize, multi-sector, SMART and TRIM accessors return the corresponding bits of words 59, 82, 85 and 169.",
"every identify block","2^4096 inputs times about a hundred fields",
"common/drive_handle.go:Init","ata/types.go:IdentityDeviceData","ata/types.go:IdentityWord59","internal/utils.go:GetStrucOptions")
p("C49","Byte order of the NVMe identify fields",
"Init decodes every field of a 4096-byte NVMe identify block at its NVMe offset but big-endian, while NVMe is little-endian: a numeric field (namespace count, vendor id, ...) has its true value exactly when its bytes are a palindrome.",
"every identify block and every field","all contents",
"common/drive_handle.go:Init","nvme/types.go:IdentifyController")
p("C50","Discovery descriptor conversions",
"For every 16-byte union content, ToTper, ToLocking, ToGeometry, ToOpalSscV200 and ToEnterpriseSSC fail (they need more bytes than the union holds), ToBasic, ToOpalSscV100, ToSingleUserMode and ToDataStoreTable succeed with the big-endian values at the TCG offsets; GetVersion and SetVersion read and replace exactly the high nibble.",
"every union content, every version","all contents",
"tcg/types.go:Discovery0FeatureUnion","tcg/types.go:VersionField")
p("C51","From discovery answer to TCG device",
"For every drive whose discovery answer is a well-formed descriptor list after a 32-byte header, Init succeeds after exactly the identify calls and the discovery read, and NewTcgDevice then yields the device type selected by the listed features (Opal v1 before Opal v2 before Enterprise), the base and number of ComIDs of the last descriptor of that feature, and the locking, encryption and MBR states of the last Locking descriptor.",
"every driver, descriptor list and identity","composition over all lists",
"common/drive_handle.go:Init","common/drive_handle.go:TcgDiscovery0","tcg/device.go:NewTcgDevice","tcg/device_opal.go:GetBaseComId")
p("C52","48-bit addressing decision",
"IsNeedsLba48 is true for the ten EXT-only commands, false for SECURITY ERASE PREPARE/UNIT, SMART and vendor command 80h, and for every other command true exactly when the start or the last sector does not lie below 2^28-1 or more than 255 sectors are requested.",
"every opcode, 64-bit LBA and 64-bit count","overflow and boundaries over 2^136 inputs",
"ata_util/utils.go:IsNeedsLba48")
p("C53","DMA command set",
"IsDma is true exactly for DSM, READ/WRITE DMA, READ/WRITE DMA EXT and READ/WRITE FPDMA.",
"every opcode value","all opcodes",
"ata_util/utils.go:IsDma")
p("C54","TfInit",
"The task file TfInit computes addresses exactly the requested sectors (48-bit form when IsNeedsLba48, else 28-bit form) and keeps features, error and status, for every LBA below 2^48 and count below 2^16; but because the task file is passed by value the caller's task file never changes.",
"every task file, opcode, LBA and count","all LBAs",
"ata_util/utils.go:TfInit")
p("C55","FixAtaStringOrder",
"For every block the result is the word-swapped text up to its first NUL, without trailing spaces when trimming is requested; a block of odd length panics exactly when no NUL occurs before its last byte.",
"every byte block of every length","unbounded",
"ata_util/utils.go:FixAtaStringOrder")
p("C56","ReadSmart",
"ReadSmart issues at most two task files, READ DATA then READ THRESHOLDS, with the standard SMART registers; the first error stops it and is returned; on success both results hold the fields at their standard offsets of the two answers (the second answer laid over the first), 16-bit fields read big-endian, so that attribute flags are right exactly when their two bytes are equal; without an ATA driver nothing is issued and 'not supported in this driver' is returned.",
"every driver behaviour and answer","adaptive drivers, all contents",
"ata_util/utils.go:ReadSmart","ata/types.go:SmartAttributeValues","ata/types.go:SmartAttributeThresholds")
# ---------------------------------------------------------------- SCSI-generic driver
p("C57","CDB bit-field accessors",
"Each accessor of the ATA PASS-THROUGH and SECURITY PROTOCOL command blocks (protocol, transfer length, offline, logical unit number, byte-block, transfer direction, CK_COND, relative address, FUA, DPO, INC_512) reads exactly its SAT/SPC bits; its setter stores the value modulo the field width and changes no other bit of the block. SetMultipleCount and SetExtend break this: SetMultipleCount never changes the multiple count but overwrites byte 2 with the low bits of byte 1 and the value; SetExtend and IsExtend act on bit 0 of byte 2, a bit of the transfer length, and never on the EXTEND bit. The accessors of fixed-format sense data read the SPC-4 fields: response code and VALID in byte 0; sense key, ILI, EOM and FILEMARK in byte 2.",
"every command block and sense data content and every 8-bit value","65536 block states times 256 values per field, and for all fields",
"plat_linux/types_ata_passthu.go:ATA_PASSTHROUGH12","plat_linux/types_ata_passthu.go:ATA_PASSTHROUGH16","plat_linux/types_cdb.go","plat_linux/sg_types.go:SCSI_SECURITY_PROTOCOL","scsi/types.go:SENSE_DATA")
p("C58","SG task file requests carry the command asked for",
"DoTaskFileCmd on the Linux SCSI driver sends at most two SG_IO requests and each, decoded by SAT-3, is the ATA command of the task file: protocol (non-data, PIO in, PIO out, DMA) from the arguments, EXTEND from the 48-bit flag, features, count, LBA, device and command equal to the registers, direction and transfer length matching the data; the packet id is the start LBA as an int32. An empty non-nil buffer panics and sends nothing.",
"every task file, buffer, address, timeout, kernel and device behaviour","all registers and adaptive devices",
"plat_linux/sg_driver.go:doTaskFileCmd","plat_linux/sg_driver.go:tfToLba")
p("C59","Data read through the SG driver",
"On a read the buffer afterwards holds the bytes the device delivered to the first request; the bytes after a short transfer keep the caller's contents when the buffer is 512-aligned and are zero when it is not; when the first request fails and the buffer is unaligned the buffer is unchanged.",
"every buffer, address, device answer and history","all lengths, alignments and answers",
"plat_linux/sg_driver.go:doTaskFileCmd","internal/aligned_buffer.go:AlignedBuffer")
p("C60","Writes through the SG driver never send the caller's data",
"DoTaskFileCmd with rw=true zeroes the caller's buffer before sending: every request of a write offers the device only zeros (or an address that designates no data), and the caller finds its buffer zeroed; so for every non-zero buffer no request carries the caller's data.",
"every non-empty buffer, command, address, kernel behaviour","a universal negative over all buffers",
"plat_linux/sg_driver.go:doTaskFileCmd")
p("C61","At most one retry, and what it sends",
"A task file command is sent once when the ioctl succeeds and exactly twice when the first ioctl fails; the retry repeats command block, direction, length, timeout and packet id but points the transfer at address 128 instead of memory; the ioctl error returned is the second one, and none is returned when either attempt succeeded.",
"every kernel behaviour, including adaptive ones","all answer sequences",
"plat_linux/sg_driver.go:doTaskFileCmd","plat_linux/utils.go:ioctl")
p("C62","Which device failures are reported",
"When an attempt succeeded at the ioctl level, DoTaskFileCmd reports an error exactly when the low nibble of byte 2 of the sense data of the first answer is not 0, carrying the SCSI status and 18 sense bytes; that is the sense key for fixed-format sense, but for descriptor-format sense it is a nibble of the additional sense code, so an aborted command with ASC 0 is reported as success.",
"every kernel, sense data and status","all sense contents",
"plat_linux/sg_driver.go:doTaskFileCmd","scsi/types.go:SENSE_DATA")
p("C63","Registers returned after a task file command",
"Unless a sense error is returned, the task file afterwards holds exactly the ATA Status Return descriptor of the sense data (extend, error, status, device, count, LBA), the command and low features registers are kept and the high features register is 0.",
"every command, kernel and sense data","all sense contents",
"plat_linux/sg_driver.go:doTaskFileCmd")
p("C64","Timeouts of SG requests",
"For every timeout in seconds that fits, the task-file path passes that number unchanged as milliseconds (1000 times too short) while the security path passes the right number of milliseconds.",
"every timeout value and call","all values, every request of every history",
"plat_linux/sg_driver.go:doTaskFileCmd","plat_linux/sg_driver.go:scsiSecurityCommand")
p("C65","SG security commands",
"SecurityCommand on the Linux SCSI driver sends one or two requests, each decoding (SPC-4) to SECURITY PROTOCOL OUT/IN with the given protocol, ComID and length; an out command offers exactly the caller's bytes and leaves them; an in command offers zeros and yields the delivered bytes, zero-filled; no sense space is offered, so the result is success exactly when one of the ioctls succeeded, whatever the device answered; an empty buffer panics.",
"every protocol, ComID, buffer below 4 GiB, kernel","all inputs and adaptive devices",
"plat_linux/sg_driver.go:scsiSecurityCommand")
p("C66","Opening a SCSI device",
"OpenByFd of the SCSI driver sends only IDENTIFY DEVICE (ATA PASS-THROUGH 12, 512 bytes, from device), at most twice, and yields a handle whose identity is the delivered 512 bytes, zero-filled, exactly when an ioctl succeeded and the first answer's sense nibble is 0; otherwise it fails with the last errno or the sense error.",
"every kernel and device","adaptive devices",
"plat_linux/sg_driver.go:OpenByFd")
# ---------------------------------------------------------------- Linux NVMe driver
p("C67","NVMe ioctl request numbers",
"The nine NVMe request numbers are those of linux/nvme_ioctl.h, and IO, IOW and IOWR encode every type, number and size below 2^14 as the kernel's _IO, _IOW and _IOWR; IOR never equals the kernel's _IOR.",
"every ioctl type, number and argument size","all sizes, and a universal negative",
"plat_linux/ioctl_utils.go:IOC","plat_linux/nvme_ioctl.go")
p("C68","NVMe admin passthrough",
"DoNvmeAdminPassthru makes exactly one ioctl, on the handle's descriptor, with the 72-byte kernel structure holding every field of the command and the address of the data; the error is nil exactly when the ioctl succeeded and otherwise its error number; the buffer receives what the device delivered (never more than DataLen, only for device-to-host opcodes) and nothing else of the command changes, so the completion result is lost.",
"every command whose fields fit their types, kernel and device","all field values, adaptive kernels",
"plat_linux/nvme_driver.go:DoNvmeAdminPassthru","plat_linux/nvme_types.go:PassthruCmd","nvme/types.go:GetDataAddr")
p("C69","NVMe I/O passthrough never transfers data",
"DoNvmeIoPassthru panics exactly when neither address nor buffer is given, otherwise makes exactly one ioctl whose structure holds every field of the command except the data length, which is always 0: no command ever receives data, and the command is returned unchanged whatever the device answers.",
"every command, kernel and device","a universal negative over all commands",
"plat_linux/nvme_driver.go:DoNvmeIoPassthru","nvme/types.go:GetDataAddr")
p("C70","NVMe user I/O",
"DoNvmeIo makes exactly one ioctl with the 48-byte kernel structure holding every field; the error is nil exactly when the ioctl succeeded and otherwise its error number.",
"every request and kernel","all field values",
"plat_linux/nvme_driver.go:DoNvmeIo","plat_linux/nvme_types.go:UserIo")
p("C71","Opening an NVMe device",
"OpenByFd of the NVMe driver makes exactly one ioctl, IDENTIFY CONTROLLER into a zeroed 4096-byte buffer; it succeeds exactly when the ioctl did, with the delivered bytes as identity, and otherwise fails with the ioctl's error number; the identity size check never fails.",
"every kernel and device","adaptive devices",
"plat_linux/nvme_driver.go:OpenByFd","plat_linux/nvme_driver.go:ReadIdentify")
p("C72","SecurityCommand on an NVMe drive",
"On a drive handle over the Linux NVMe driver, SecurityCommand makes exactly one ioctl, SECURITY SEND/RECEIVE with protocol and ComID in CDW10 and the buffer's length in CDW11 and as transfer length, offering the caller's bytes; a send leaves the buffer, a receive lays the delivered bytes over it; the timeout argument is ignored (0 is passed).",
"every protocol, ComID, buffer below 4 GiB, call history, kernel","composition over all histories",
"common/drive_handle.go:SecurityCommand","plat_linux/nvme_driver.go:SecurityCommand","plat_linux/nvme_driver.go:DoNvmeAdminPassthru")
p("C73","Log pages on an NVMe drive",
"NvmeGetLogPage over the Linux NVMe driver makes between one and ceil(n/4096) ioctls, each GET LOG PAGE for the whole page with the right id, RAE bit and dword count; the first success ends it, every attempt works on the buffer the previous one left, and the error returned is the last ioctl's.",
"every namespace, log id, size of at least 4 bytes, kernel","unbounded sizes, adaptive kernels",
"common/nvme/default.go:NvmeGetLogPageByAdminPassthru","plat_linux/nvme_driver.go:NvmeGetLogPage")
p("C74","SecurityCommand on a SCSI drive",
"On a drive handle over the Linux SCSI driver, SecurityCommand sends at most four requests: SECURITY PROTOCOL OUT/IN, repeated once when its ioctl fails, and only when both fail TRUSTED SEND/RECEIVE (again at most twice); on that fallback a send offers the drive only zeros and leaves the caller's buffer zeroed, so the caller's data is never sent and success can still be reported.",
"every protocol, ComID, non-empty buffer below 4 GiB, call history, kernel and device","composition over all histories",
"common/drive_handle.go:SecurityCommand","plat_linux/sg_driver.go:doTaskFileCmd","plat_linux/sg_driver.go:scsiSecurityCommand")
p("C75","Opening a descriptor on Linux",
"OpenByFd never returns an error: it reads the basic information, the by-id names, then probes the NVMe and the SCSI driver once each, in that order, and uses the last one that accepts (driving type and name are that driver's); when none accepts it still returns a handle, without driver and of unknown type. The texts are the by-id ones unless identify data of sufficient length replaces them. It can only panic, and only when the drive of an accepting driver answers discovery with descriptors running over the buffer.",
"every system behaviour (adaptive answers to every call), descriptor, path, earlier history","adaptive systems; all combinations of accepting drivers and identify data",
"plat_linux/drive_factory.go:OpenByFd","common/drive_handle.go:Init")
p("C76","Opening and closing by path on Linux",
"OpenByPath fails exactly when the system refuses to open the path. Close after a successful open closes the descriptor exactly once if some driver accepted the drive and never if none did (the descriptor leaks); further Closes do nothing.",
"every system behaviour, path, earlier history","a leak is only visible over whole traces",
"plat_linux/drive_factory.go:OpenByPath","plat_linux/utils.go:OpenDevice","common/drive_handle.go:Close")
p("C77","EnumDrives",
"EnumDrives stats /dev/NAME for every entry of /sys/block whose name does not contain \"loop\", opens it exactly when it is a block device whose name does not contain \"sr\", and reports exactly the drives it could open, in directory order. It closes nothing before the last open; then every handle with a driver is closed once, last opened first. One drive with a malformed discovery answer panics the whole enumeration (the deferred closes still run, the bad drive's descriptor leaks).",
"every system behaviour, every directory listing","unbounded listings and adaptive answers; trace properties",
"plat_linux/drive_factory.go:EnumDrives")
p("C78","Model and serial from /dev/disk/by-id",
"The names considered are those outside the language nvme-\\w*\\.|-part|scsi|wwn. If one of them does not resolve, all four texts are blank. Otherwise model and serial are the parts of some considered name that resolves to the path and contains an underscore (serial after the last underscore, model after the first dash before it), blank if there is none; with several such names any of them may be reported (map order). Vendor and revision are the sysfs files of the path's last component without the Unicode white space at both ends, whether or not the contents are UTF-8; the contents determine them.",
"every directory content, link resolution, file content and iteration order","all strings and all iteration orders",
"plat_linux/drive_factory.go:getIdInfo","plat_linux/drive_factory.go:skipPat")
p("C79","Partition style, disk identifiers and capacity",
"ReadBasicInfo reports style 2 and the lower-cased disk GUID for a GPT, style 1 and the signature for an MBR (the little-endian word at 440 when 512 bytes ending in 55 AA could be read, else 0), style 0 otherwise; the capacity is the BLKGETSIZE64 value as a signed number. When diskfs cannot open the path or HDIO_GETGEO fails nothing at all is reported. The drive information carries exactly these values.",
"every answer of the system and every sector content","all sector contents and failure combinations",
"plat_linux/utils.go:ReadBasicInfo","internal/direct_mbr/table.go:Read","internal/direct_mbr/table.go:tableFromBytes","plat_linux/drive_factory.go:OpenByFd")
p("C80","Volumes of /proc/mounts",
"EnumVolumes yields exactly one volume per device named in the lines delivered from /proc/mounts (all lines before the first one of 64 KiB or more, without a trailing carriage return), with that path, all its mount points in file order, and the file system of its first line.",
"every content of /proc/mounts, every system behaviour","unbounded text",
"plat_linux/volume.go:EnumVolumes","plat_linux/volume.go:ToVolumeInfo")
p("C81","Partitions of volumes",
"Only a device named <parent>p<number> with <parent> in /dev/.+<digit> gets a partition (never /dev/sda1 and the like): the entry of that number in the parent's GPT or MBR table, as read on the last line that found one, with type and id braced and upper-cased for GPT; the reported size is always the start offset. A number beyond the table gives none; EnumVolumes panics exactly for number 0 on a parent with a readable table.",
"every content of /proc/mounts, every partition table, every system behaviour","unbounded numbers and names, adaptive answers",
"plat_linux/volume.go:EnumVolumes","plat_linux/volume.go:partitionDeviceRegex")
p("C82","Errors while reading /proc/mounts",
"EnumVolumes fails exactly when /proc/mounts cannot be opened or when reading fails inside a line of less than 64 KiB preceded only by such lines; a read error between lines or an over-long line truncates the list silently.",
"every text and position of the read error","every crash point of the read",
"plat_linux/volume.go:EnumVolumes")
p("C83","Volume lookups",
"GetList reports each device once in some order; FindVolumesByDrive reports the volume whose path is exactly the drive's, so at most one and never one on a partition of it; OpenDriveByVolumePath only ever looks at the first volume of the runtime's map order, so when another volume exists it may answer (nil, nil) for a volume that is listed; OpenDriveByPartition opens the parent named by the partition's device.",
"every map order, every table of volumes","all iteration orders",
"plat_linux/volume.go:GetList","plat_linux/volume.go:FindVolumesByDrive","plat_linux/volume.go:OpenDriveByVolumePath","plat_linux/volume.go:OpenDriveByPartition")
p("C84","Descriptors opened by EnumVolumes",
"A successful EnumVolumes makes exactly one open per line naming a partition, of its parent and in line order (the cache is never filled), and closes none of the descriptors.",
"every content of /proc/mounts, every system behaviour","a leak is only visible over whole traces",
"plat_linux/volume.go:EnumVolumes")
p("C85","Windows ATA requests",
"On Windows every ATA command with a buffer becomes one direct pass-through request (over the caller's memory if 512-byte aligned, otherwise over a bounce buffer) and, exactly if that request fails, one buffered request with the data behind the 48-byte header; each carries exactly the command, registers, direction, 48-bit flag, length and timeout asked for, never the DMA flag; the header bytes the code does not assign are what the failed request left behind. A command without data makes no request and panics.",
"every command, buffer, address, timeout and answer of the system","every answer history of DeviceIoControl",
"plat_win/ata_driver.go:AtaDriver.doTaskFileCmd")
p("C86","Windows ATA data",
"A read delivers the bytes the device returned over the caller's buffer (zero-filled behind them when a bounce buffer is used), through whichever request succeeded; a write zeroes the caller's buffer and sends only zeros in both requests.",
"every buffer, alignment and answer","every buffer and answer history",
"plat_win/ata_driver.go:AtaDriver.doTaskFileCmd")
p("C87","Windows ATA errors",
"After a successful direct request the driver reports an error exactly if the returned status has ERR or DRQ; if both requests fail it returns the second's error number; if only the fallback succeeds the device's status is ignored and the command code is tested in its place, so a command whose code has bit 0 or 3 set can never succeed by the fallback and any other never fails by it.",
"every command and answer history","every answer of the device",
"plat_win/ata_driver.go:AtaDriver.doTaskFileCmd")
p("C88","Windows SCSI driver: ATA commands",
"The SCSI driver sends ATA PASS-THROUGH packets with the command and registers asked for but protocol, direction, transfer length and EXTEND all zero; direct first and buffered exactly if that failed; the sense nibble of byte 2 of the last successful answer's header decides the result; reads deliver the device's bytes and writes send zeros.",
"every command, buffer, address, timeout and answer","every answer history of DeviceIoControl",
"plat_win/scsi_driver.go:ScsiDriver.doTaskFileCmd")
p("C89","Windows SecurityCommand",
"SECURITY PROTOCOL IN/OUT requests carry exactly the protocol, ComID, direction and length asked for, but the payload of an OUT is never sent: the caller's buffer is zeroed and zeros go out.",
"every protocol, ComID, payload and answer","every payload and answer history",
"plat_win/scsi_driver.go:scsiSecurityCommand")
p("C90","Windows opens by IDENTIFY DEVICE",
"The ATA driver accepts a handle exactly if the single direct IDENTIFY DEVICE succeeds with neither ERR nor DRQ; the SCSI driver exactly if its exchange reports no error; the identity is the delivered data, zero-filled to 512 bytes.",
"every answer of the system","every answer of the device",
"plat_win/ata_driver.go:AtaDriver.openImpl","plat_win/scsi_driver.go:ScsiDriver.openImpl")
p("C91","NVMe admin commands through the Windows miniport",
"An admin command with DataLen above 4096 fails with \"too long data\" without touching the system; any other becomes exactly one miniport request carrying opcode, namespace and dwords 10-15 and the command's memory (DataAddr if set, else DataBuffer) zero-padded to 4096 bytes; flags, dwords 2/3, metadata and timeout are dropped. On success the first DataLen bytes of the reply's data replace the caller's, on failure nothing changes and the system's error is returned. The request is always marked as a read, even for commands that send data.",
"every command, memory content and answer of the system","every command and answer",
"plat_win/nvme_scsi.go:scsiMiniportDoNvmeAdminPassthru")
p("C92","Opening an NVMe drive through its SCSI port",
"The driver asks the handle for its SCSI address, opens \\\\.\\SCSI<port>: with the port in decimal, and sends Identify Controller on the new handle; it accepts any successful answer and takes the 4096 data bytes of the reply as identity. Each failing step ends the open with that step's error, and a failed identify closes the handle it opened.",
"every answer of the system at each step","every answer history",
"plat_win/nvme_win_driver.go:NvmeWinDriver.OpenByHandle","plat_win/nvme_win_driver.go:NvmeWinDriver.GetScsiPath","plat_win/nvme_win_driver.go:NvmeWinDriver.QueryNvmeIdentity")
p("C93","Handles of the Windows drivers",
"Through every sequence of driver calls, commands go to the driver's own command handle only, nothing is opened, and each Close closes exactly the handle the driver was opened with; so the second handle opened by the miniport driver is never closed.",
"every driver kind and every sequence of calls","every call sequence and answer history",
"plat_win/nvme_win_driver.go:NvmeWinDriverHandle.Close","plat_win/windows_nvme_driver.go:WindowsNvmeDriverHandle.Close","plat_win/scsi_driver.go:ScsiDriverHandle.Close","plat_win/ata_driver.go:AtaDriverHandle.Close")
p("C94","Opening an NVMe drive by storage query",
"The driver issues one adapter protocol-specific property query for Identify Controller (4096 bytes behind a 48-byte header); any successful answer is accepted and the bytes behind the header, zero-padded, are the identity; a failure returns the system's error.",
"every answer of the system","every answer",
"plat_win/windows_nvme_driver.go:WindowsNvmeDriver.OpenByHandle","plat_win/windows_nvme_driver.go:WindowsNvmeDriver.QueryNvmeIdentity")
p("C95","NVMe log pages by storage query",
"NvmeGetLogPage issues one device protocol-specific query naming the log page and the size but neither the namespace nor the retain flag; the answer is accepted exactly if its Version and Size fields are both 48, and then exactly the requested number of bytes is returned, zero where the device returned less.",
"every page, size >= 0, flag and answer","every size and answer",
"plat_win/windows_nvme_driver.go:WindowsNvmeDriverHandle.NvmeGetLogPage")
p("C96","TCG commands over the Windows miniport driver",
"SecurityCommand of a drive opened through the miniport sends one Security Send/Receive with the protocol, ComID and length asked for, on the second handle; more than 4096 bytes fail without a request; on success the caller's buffer is what the reply carries, for sends too; on failure the error is the system's and the buffer is unchanged.",
"every protocol, ComID, buffer, prior history and answer","every history",
"common/drive_handle.go:DriveHandleImpl.SecurityCommand","plat_win/nvme_win_driver.go:NvmeWinDriverHandle.DoNvmeAdminPassthru")
p("C97","TCG commands over the other Windows drivers",
"Over SCSI and storage-query drivers SecurityCommand first exchanges a SECURITY PROTOCOL packet, whose success is the result; after a failure the storage-query driver reports \"not supported\" in place of the error, and the SCSI driver sends the ATA TRUSTED command with the same protocol, ComID and block count over what the first attempt left in the buffer. Over the ATA driver one TRUSTED command is sent, never flagged DMA, and success means that its direct request succeeded.",
"every protocol, ComID, buffer, address, prior history and answer","every history",
"common/drive_handle.go:DriveHandleImpl.SecurityCommand","plat_win/scsi_driver.go:scsiSecurityCommand","plat_win/ata_driver.go:AtaDriver.doTaskFileCmd")
p("C98","Windows TCG sends carry zeros",
"Whatever payload is given to SecurityCommand for sending over the Windows SCSI, ATA or storage-query drivers, every request made carries only zero bytes, and the caller's buffer is all zeros afterwards.",
"every payload, driver kind, prior history and answer","every payload and history",
"plat_win/scsi_driver.go:scsiSecurityCommand","plat_win/ata_driver.go:AtaDriver.doTaskFileCmd")
p("C99","NVMe fuse bits",
"Setting the fused-operation field of a Windows NVMe command changes exactly the two low bits of its second byte and reading gives back the value modulo 4.",
"every byte and value","all byte pairs",
"plat_win/nvme_win_types.go:NVMe_COMMAND_DWORD_0.SetFuse","plat_win/nvme_win_types.go:NVMe_COMMAND_DWORD_0.GetFuse")

p("C100","Windows queries of unknown size",
"A device query of unknown size first offers 4096 bytes; only if the system answers ERROR_INSUFFICIENT_BUFFER is the same question asked once more, with exactly the size the system named. Success returns the buffer and the byte count of the last call; an error reported is the first call's even if the second failed otherwise; a named size of 0, or a count larger than the buffer, ends the program.",
"every handle, code, input, prior history and answer","every pair of answers",
"plat_win/utils.go:readDeviceIoControl")
p("C101","Windows disk information",
"Reading a disk's basic information asks for device number, geometry and partition layout, in that order, on the given handle only. Device number and size are reported exactly if their query succeeded; the partition style, disk signature or GUID text and the partitions (offset, size, type and id GUIDs or MBR type and boot flag) are those of the layout answer, limited to the entries it contains in full; without a layout no table is reported. The GUID text determines the GUID.",
"every answer of the system","every answer",
"plat_win/utils.go:ReadBasicInfo","plat_win/storage_types.go:PARTITION_INFORMATION_EX")
p("C102","Layouts that end the program",
"Reading the basic information of a disk panics exactly if the layout query negotiated an impossible size, or the layout returned is shorter than its 48-byte header, or one of its entries has another partition style than the disk; it never returns an error.",
"every answer of the system","every answer",
"plat_win/utils.go:ReadBasicInfo")
p("C103","Windows storage descriptor",
"The storage query reports device type, removability and bus type as stored in the descriptor, and vendor, product, revision and serial as the zero-terminated texts at the descriptor's offsets without surrounding blanks (empty for offset 0 or without terminator); an empty answer or an offset beyond the bytes returned ends the program.",
"every answer of the system (buffers shorter than the descriptor are outside the model)","every answer",
"plat_win/utils.go:ReadStorageQuery","plat_win/utils.go:readNullTerminatedAscii")
p("C104","Opening a handle on Windows",
"OpenByHandle never returns an error. The drivers are asked in the fixed order miniport NVMe, storage-query NVMe, SCSI, ATA; the first that accepts is the one used, later ones are not asked, only its own command handle is used afterwards, and model, serial and firmware are those of the identify data it read. Only if all refuse is the storage query sent. It panics only over unreadable layouts or storage descriptors, or a malformed discovery answer of the accepting drive.",
"every handle, path, history and answer","every history",
"plat_win/drive_factory.go:WindowsDriveFactory.OpenByHandle")
p("C105","Opening a path on Windows",
"OpenByPath fails exactly if the path contains a NUL byte (nothing is done then) or the system refuses to open it (its error is returned and nothing stays open).",
"every path, history and answer","every path and history",
"plat_win/drive_factory.go:WindowsDriveFactory.OpenByPath","plat_win/utils.go:OpenDevice")
p("C106","Closing a drive on Windows",
"Close closes the drive's handle exactly once if some driver accepted the drive; if none did it closes nothing, so the handle is lost; further Close calls do nothing.",
"every history and answer","every history",
"plat_win/drive_factory.go:WindowsDriveFactory.OpenByHandle","common/drive_handle.go:DriveHandleImpl.Close")
p("C107","Drives without a driver on Windows",
"If no driver accepts the drive, its model, serial, vendor, revision, removability and drive type are those of the storage descriptor (device types 0, 1, 5, 9 mean fixed, tape, CD-ROM, remote; others unknown); if that query fails too, all texts are empty, removability is -1 and the type unknown.",
"every history and answer","every answer",
"plat_win/drive_factory.go:WindowsDriveFactory.OpenByHandle","plat_win/utils.go:ReadStorageQuery")
p("C108","Windows device numbers",
"If the system tells the device number, the drive and all its partitions report it; if not, the drive reports 0, as disk 0 does, while its partitions report disk 4294967295.",
"every history and answer","every answer",
"plat_win/drive_factory.go:WindowsDriveFactory.OpenByHandle","plat_win/utils.go:ReadBasicInfo")
p("C109","Enumerating drives on Windows",
"EnumDrives fails exactly if the list of disk interfaces cannot be obtained. Otherwise devices 0, 1, 2, ... are looked at in order until the system has no more (or interfaces cannot be enumerated), and the result is, in order, the drives among them whose path could be obtained (the text up to the first NUL, after one retry with the required size rounded up to 1024) and opened; a device without interface or path, or one that cannot be opened, is left out. A required size of 0 or above 2^32-1024 ends the program.",
"every system, any number of devices, every answer and history","every history and device count",
"plat_win/drive_factory.go:WindowsDriveFactory.EnumDrives","plat_win/setupapi.go")
p("C110","EnumDrives releases what it opened",
"When EnumDrives returns or panics, every reported drive that has a driver has been closed exactly once with the handle its path was opened with, last opened first, and then the device list has been destroyed, exactly once. The handle of a drive no driver accepted is not closed.",
"every system, any number of devices","every history, including panics",
"plat_win/drive_factory.go:WindowsDriveFactory.EnumDrives","common/drive_handle.go:DriveHandleImpl.Close")
p("C111","Enumerating volumes on Windows",
"EnumVolumes fails exactly if the first volume cannot be found. Otherwise every volume found is reported, in order, until the search for the next one fails for whatever reason; it panics exactly if a volume's mount point list does not end within 4096 units or at least 172 extents are announced.",
"every system, any number of volumes, every answer and history","every history and volume count",
"plat_win/volume.go:EnumVolumes")
p("C112","What is reported about a volume",
"A volume's path is its name without trailing backslashes; it has at most one mount point, the first the system names (others are not reported), at most 170 extents as stored in the answer, and a partition only if it has extents, with the disk number, start and size of the first; the filesystem name and drive type are the system's.",
"every system, every volume","every answer",
"plat_win/volume.go:EnumVolumes","plat_win/volume.go:PartitionImpl.readPartitionInfoByVolumeHandle")
p("C113","EnumVolumes releases what it opened",
"However EnumVolumes ends (result, error or panic), the volume handles closed are exactly those opened, each once and in reverse order, the search handle is closed once after them, and the process error mode, changed exactly once before, is restored as the very last action.",
"every system, any number of volumes","every history, including panics",
"plat_win/volume.go:EnumVolumes")
p("C114","Volumes of a drive",
"FindVolumesByDrive returns, in order, exactly the enumerated volumes whose first extent lies on the drive's device number; volumes spanning disks count for their first disk only, and a drive of unknown device number gets disk 0's volumes. GetList returns all.",
"every list of volumes and every drive","every list",
"plat_win/volume.go:EnumVolumeContextImpl.FindVolumesByDrive","plat_win/volume.go:EnumVolumeContextImpl.GetList")
p("C115","Opening the drive of a volume or partition",
"OpenDriveByVolumePath opens \\\\.\\PhysicalDriveN where N, in decimal without leading zeros, is the disk of the first extent of the first volume whose path equals the argument up to one trailing backslash; without such a volume or without extents it opens nothing and returns neither drive nor error. OpenDriveByPartition opens the disk the partition names. Different disks have different paths.",
"every list of volumes, path and partition","every path and list",
"plat_win/volume.go:EnumVolumeContextImpl.OpenDriveByVolumePath","plat_win/volume.go:EnumVolumeContextImpl.OpenDriveByPartition")
p("C116","Partition accessors agree",
"A partition of an opened drive or an enumerated volume either is GPT and has GPT information only, or is MBR and has MBR information only, or is raw and has neither; for an opened drive its style is the drive's. The bus type names are those of the STORAGE_BUS_TYPE enumeration, distinct, and empty for unknown values.",
"every partition obtainable through the API, every bus type","every answer",
"plat_win/volume.go:PartitionImpl","plat_win/storage_types.go:StorageBusTypeToString")
p("C117","TCG operations over a Linux NVMe drive",
"On a drive handled by the Linux NVMe driver every security command of a TCG operation is exactly one admin passthrough ioctl on the opened descriptor, in order, with the command's protocol, ComID, length and bytes, and what the client reads is what the kernel reported and delivered. RevertTPer hands over one StartSession frame carrying the credential and then at most one Revert frame; GetDefaultPassword one StartSession without credential and then at most one Get of the MSID PIN. Success means both were handed over, the kernel reported success for the last receive and the delivered bytes are an accepted answer; the password returned is the text of its fifth token.",
"every kernel, clock, drive answer, password, earlier history and buffer address","every sequence of answers and every length of polling",
"tcg/device_opal.go:TcgDeviceOpal2.RevertTPer","tcg/session.go:TcgSession.Start","common/drive_handle.go:DriveHandleImpl.SecurityCommand","plat_linux/nvme_driver.go")
p("C118","TCG operations over a Linux SCSI drive",
"On a drive handled by the Linux SG driver every security command of a TCG operation is a group of one to four SG requests in order, the first being the SECURITY PROTOCOL command with the command's own bytes, and the only one if it is accepted. RevertTPer hands over one StartSession and then at most one Revert. That success means the drive received them is false: behind a controller that accepts only ATA passthrough, no accepted request carries anything but zeros, and RevertTPer can still succeed.",
"every kernel, clock, drive answer, password, earlier history and buffer address","every sequence of answers and every length of polling",
"tcg/device_opal.go:TcgDeviceOpal2.RevertTPer","common/drive_handle.go:DriveHandleImpl.SecurityCommand","plat_linux/sg_driver.go","plat_linux/drive_factory.go")
p("C119","TCG passwords on Windows (SCSI, ATA and storage-query drivers)",
"On Windows, except through the NVMe miniport, every send of a TCG operation becomes one or more requests whose data is all zeros. Consequently the password has no effect: RevertTPer with any two passwords, hashed or PSID, right, wrong or empty, asks the system exactly the same things and gives the same result. That the password decides is refuted.",
"every system, answer, pair of passwords and flags, earlier history","a relation between all pairs of executions",
"plat_win/scsi_driver.go","plat_win/ata_driver.go","plat_win/windows_nvme_driver.go","tcg/device_opal.go:TcgDeviceOpal2.RevertTPer")
p("C120","TCG operations over the Windows NVMe miniport",
"Through the NVMe miniport every security command of a TCG operation is exactly one DeviceIoControl on the miniport's handle, in order, carrying the command's protocol, ComID and length, with its bytes followed by zeros in the 4096-byte page; the client reads the page of the answer, and on a failed call nothing. RevertTPer hands over one StartSession with the credential and at most one Revert; success needs both.",
"every system, clock, answer, password and earlier history","every sequence of answers and every length of polling",
"plat_win/nvme_scsi.go","plat_win/nvme_win_driver.go","tcg/device_opal.go:TcgDeviceOpal2.RevertTPer")
p("C121","Which driver a Linux drive gets",
"OpenByPath on Linux sends one NVMe IDENTIFY CONTROLLER ioctl and one or two SG IDENTIFY DEVICE requests on the descriptor; the driver name of the handle tells which was accepted: the SCSI driver whenever IDENTIFY DEVICE was accepted, else the NVMe driver if IDENTIFY CONTROLLER was, else none - and then every operation on the handle is refused without reaching the system.",
"every system (kernel answers, paths, sysfs), path and earlier history","every combination of answers",
"plat_linux/drive_factory.go","plat_linux/nvme_driver.go","plat_linux/sg_driver.go")
p("C122","What is reported about a Linux NVMe drive",
"For a drive opened through the NVMe driver exactly two ioctls were made: IDENTIFY CONTROLLER, which succeeded, and SECURITY RECEIVE of protocol 1 and ComID 1 into 2048 bytes. Model, serial number and firmware are the trimmed bytes 24-63, 4-23 and 64-71 the kernel delivered for the first; the TCG features reported are exactly those of the descriptors the kernel delivered for the second if it succeeded, and none if it failed.",
"every system, path and earlier history; every conforming discovery answer","every answer",
"plat_linux/drive_factory.go","plat_linux/nvme_driver.go","common/drive_handle.go:DriveHandleImpl.Init")
p("C123","What is reported about a Linux SATA drive",
"For a drive opened through the SG driver (NVMe ioctls refused) the requests made are one or two IDENTIFY DEVICE, then one to four discovery requests (SECURITY PROTOCOL IN, then TRUSTED RECEIVE). Model, serial number, firmware and SMART state are those of the IDENTIFY data delivered for the first request; the TCG features are exactly those of the discovery data if the first discovery request succeeded, and none if all failed.",
"every system, path and earlier history; every conforming discovery answer","every answer",
"plat_linux/drive_factory.go","plat_linux/sg_driver.go","common/drive_handle.go:DriveHandleImpl.Init")
p("C124","When opening a Linux drive crashes",
"Once the path opened, OpenByPath either returns a handle or ends the program, and it ends the program only over a malformed Level 0 discovery answer to a command that succeeded. For a drive only the NVMe driver accepts this is exact: it crashes if and only if IDENTIFY and SECURITY RECEIVE succeed and the answer's descriptors run over the 2048 bytes.",
"every system, path and earlier history","every answer",
"plat_linux/drive_factory.go","common/drive_handle.go:DriveHandleImpl.TcgDiscovery0")
p("C125","From a device path to a reverted drive",
"A drive opened by path through the NVMe driver whose discovery answer lists Opal v2 with ComID c (and not Opal v1) and on which RevertTPer is called receives, after the two ioctls of opening, only commands of protocol 1 and ComID c on the same descriptor: the StartSession frame whose credential is derived from the password and the serial number of its IDENTIFY data, then at most one Revert frame. Success means it accepted the Revert.",
"every system, path, password, clock, answers and earlier history","every sequence of answers and every length of polling",
"plat_linux/drive_factory.go","tcg/device.go:NewTcgDevice","tcg/device_opal.go:TcgDeviceOpal2.RevertTPer")
p("C126","Devices without Opal or Enterprise",
"On a device whose discovery lists neither Opal nor Enterprise, RevertTPer, GetDefaultPassword and OpalGetTable return the error \"not supported\" without any effect, and Exec, SendCommand, session Start and Authenticate return it having only read the clock; no security command is ever issued.",
"every such device, environment, argument and earlier history","unbounded inputs and histories",
"tcg/device.go:TcgDeviceImpl","tcg/session.go:TcgSession.SendCommand")
p("C127","Reading a table",
"OpalGetTable on an Opal device sends, in the session passed to it, exactly one Get method call naming the table and the first and last column number (EnterpriseGetTable: their names), and returns the response without error exactly when the drive accepted the call; on any other device OpalGetTable refuses without effect, whatever the session.",
"every session, table, column range, environment and earlier history","unbounded inputs and answers",
"tcg/device_opal.go:opalGetTable","tcg/device_enterprise.go:TcgDeviceEnterprise.EnterpriseGetTable","tcg/device.go:TcgDeviceImpl.OpalGetTable")
p("C128","Whom an answer is addressed to",
"No operation looks at the ComID, the TPer and host session numbers, the sequence and acknowledgement numbers or the subpacket kind of an answer: two drives whose answers differ only in these bytes are sent the same commands and give the same results (same errors, same tokens, same session state) for SendCommand, Start, Authenticate, RevertTPer and GetDefaultPassword. That answers of other sessions are rejected is refuted.",
"every pair of drives differing only in those bytes, every operation and history","a relation between all pairs of executions",
"tcg/device.go:TcgDeviceImpl.Exec","tcg/session.go:TcgSession.SendCommand","tcg/response.go:TcgResponse.Commit")
p("C129","What is reported about a Windows drive behind the NVMe miniport driver",
"For a device whose SCSI port accepts the NVMe miniport request, OpenByHandle makes exactly one further request after IDENTIFY: SECURITY RECEIVE of protocol 1 and ComID 1 for 2048 bytes, on the SCSI port handle. If it succeeds the TCG features reported are those of its descriptors (a crash if they run over the buffer); if it fails they are unknown. Model, serial number and firmware are the trimmed bytes of the IDENTIFY answer that made the driver accept the drive.",
"every system (answers of every request), device handle, path text and earlier history","every combination of answers",
"plat_win/drive_factory.go","plat_win/nvme_win_driver.go","common/drive_handle.go:DriveHandleImpl.Init")
p("C130","Level 0 discovery through the other Windows drivers",
"The storage-query NVMe driver sends one SECURITY PROTOCOL IN packet and records any failure as a drive without TCG support; the SCSI driver then sends TRUSTED RECEIVE as an ATA pass-through packet and reports unknown if both fail; the ATA driver sends TRUSTED RECEIVE as its task file and uses only the direct answer, never that of the buffered second attempt. A successful answer is recorded, or crashes the program if its descriptors run over the buffer.",
"every system, device handle, buffer addresses, path text and earlier history","every combination of answers",
"plat_win/drive_factory.go","plat_win/windows_nvme_driver.go","plat_win/scsi_driver.go","plat_win/ata_driver.go","common/drive_handle.go:DriveHandleImpl.TcgDiscovery0")
p("C131","From a Windows device to a reverted drive",
"On a drive opened through the NVMe miniport driver whose discovery answer lists Opal v2 with ComID c (and not Opal v1), RevertTPer issues on the SCSI port handle, after the requests of opening, only security commands of protocol 1 and ComID c: the StartSession frame whose credential is derived from the password and the serial number of its IDENTIFY data, then at most one Revert frame; success means the last answer accepted the Revert.",
"every system, device handle, password, clock, answers and earlier history","every sequence of answers and every length of polling",
"plat_win/drive_factory.go","plat_win/nvme_win_driver.go","tcg/device.go:NewTcgDevice","tcg/device_opal.go:TcgDeviceOpal2.RevertTPer")
p("C132","Concurrent use of drive handles under a readers-writer discipline",
"When goroutines open, use and close drive handles concurrently and nobody else uses a handle while it is being closed, every ioctl and close(2) made for a handle reaches the device that handle was opened for (even though descriptor numbers are reused), no call other than GetDrivingType/GetDriverName on an already closed handle crashes, and each handle's descriptor is closed exactly once.",
"every schedule of any number of goroutines and handles, every outcome of the system calls","all interleavings",
"common/drive_handle.go:DriveHandleImpl","plat_linux/drive_factory.go:LinuxDriveFactory.OpenByPath")
p("C133","Concurrent use of drive handles without synchronisation",
"In every schedule: system calls made for a handle after a Close on it returned belong to calls already running then; the descriptor is closed at least once when a Close has returned and at most as often as Close was called; a crash of a command or Close needs a concurrent Close. The stronger claims (commands and closes reach only the handle's own device, the descriptor is closed once, no crash) are refuted: a concurrent Close can make a command of one drive be executed by another, close another drive's descriptor, or end the program.",
"every schedule of any number of goroutines and handles, every outcome of the system calls","all interleavings",
"common/drive_handle.go:DriveHandleImpl.Close","common/drive_handle.go:DriveHandleImpl.SecurityCommand")
p("C134","TCG operations of several goroutines on one drive",
"On a drive that answers a receive on a ComID with its response to the command last sent on that ComID: while no other goroutine sends on the ComID, what Exec returns is the drive's response to its own command; RevertTPer returns nil only if the drive accepted this very Revert in the session it opened for this very call; the text GetDefaultPassword returns is in the response to its own Get. Other goroutines may do anything else meanwhile. Without that condition the claim is refuted: RevertTPer can report success on a drive that refuses every Revert, by taking the answer to another goroutine's StartSession.",
"every interleaving of the calls of any number of goroutines, every drive with one response buffer per ComID, every device and password","all interleavings and drive behaviours",
"tcg/device.go:TcgDeviceImpl.Exec","tcg/device_opal.go:TcgDeviceOpal2.RevertTPer","tcg/session.go:TcgSession.SendCommand")
p("C135","TCG operations come to an end",
"Whatever a drive answers, SendCommand, Start and Authenticate return or end the program after at most one command and 402 receives, sleeping at most 10.05 seconds; RevertTPer and GetDefaultPassword after at most twice that. This needs a clock that moves on by at least the time slept; without it the bound is refuted.",
"every sequence of answers and errors of the drive, every clock that does not fall behind the sleeps, every password, command and session state","unbounded polling; no test can show that every answer sequence ends it",
"tcg/device.go:TcgDeviceImpl.Exec","tcg/session.go:TcgSession.SendCommand","tcg/session.go:TcgSession.Start","tcg/device_opal.go:TcgDeviceOpal2.RevertTPer")
p("C136","When a drive's answer ends the program",
"SendCommand, Authenticate, RevertTPer and GetDefaultPassword panic if and only if a command of theirs is answered by a response with a payload of one to four tokens the first of which is not end-of-session; for RevertTPer and GetDefaultPassword that command is the StartSession, or the Revert or Get sent with the session numbers the drive assigned. No other answer, of whatever bytes, ends the program.",
"every answer of the drive, password, session state and earlier history","every byte sequence a drive can answer",
"tcg/session.go:TcgSession.SendCommand","tcg/response.go:TcgResponse.Commit","tcg/device.go:TcgDeviceImpl.GetDefaultPassword")
p("C137","Repeated discovery",
"Over any sequence of interface calls on an opened drive handle, the TCG features reported are those reported before plus everything listed by any discovery answer of the sequence (a feature that an answer no longer lists is still reported), each feature code maps to the descriptor seen last, the support value is that of the last TcgDiscovery0, and model, serial and the other identification never change. That the handle reports what the last answer lists is refuted.",
"every call sequence, every driver answer (any bytes, any error), every initial state with a completed Init","all histories",
"common/drive_handle.go:DriveHandleImpl.TcgDiscovery0","common/drive_handle.go:DriveHandleImpl.GetDriveInfo")
p("C138","A TCG device after a later discovery",
"A device made by NewTcgDevice shares the raw descriptors but not the flags with the drive handle: after later TcgDiscovery0 calls IsLocked, IsLockingEnabled, IsMediaEncryption, IsMBREnabled, IsMBRDone, GetBaseComId and GetNumComIds answer from the descriptors seen last, while the device type, the serial number, IsAnySSC and IsLockingSupported stay what they were when it was made (and a device made without Locking answers false for ever). That it agrees with a device made afterwards is refuted.",
"every call sequence between making the device and asking it, every driver answer","all histories; aliasing of a map between two objects",
"tcg/drive_handle.go:NewTcgDriveHandle","tcg/device.go:TcgDeviceImpl.IsLocked","common/drive_handle.go:DriveHandleImpl.TcgDiscovery0")
p("C139","What EnumDrives says about each drive it lists",
"On Linux the information EnumDrives returns for a drive is what OpenByPath of /dev/NAME, for a name of the directory listing, gives at that moment of the enumeration: for a drive handled by the NVMe driver the texts of its own IDENTIFY answer and the TCG features of its own discovery answer, both sent on the descriptor that was opened for its path; for a SATA drive (one that refuses NVMe commands) the texts of its own IDENTIFY answer; every other listed drive has no driver.",
"every directory, every outcome of the system calls, every answer of every drive","all systems and enumerations; composition of the enumeration with the drivers",
"plat_linux/drive_factory.go:LinuxDriveFactory.EnumDrives","plat_linux/drive_factory.go:LinuxDriveFactory.OpenByPath")
p("C140","When opening a Windows drive crashes",
"Once the path opened, Windows OpenByPath ends the program exactly if the partition layout cannot be read; or some driver accepted the drive, its Level 0 discovery was answered (over the miniport, the storage-query driver's SECURITY PROTOCOL IN, the SCSI driver's SECURITY PROTOCOL IN or else ATA TRUSTED RECEIVE, or the ATA driver's TRUSTED RECEIVE) and the answer's descriptors run over its end; or no driver accepted it and the storage descriptor is empty or has a text beyond its end. Otherwise it returns a handle.",
"every system and drive: any answers, errors and sizes, depending on everything done before","every byte sequence and every combination of refusals",
"plat_win/drive_factory.go:WindowsDriveFactory.OpenByPath","plat_win/drive_factory.go:WindowsDriveFactory.OpenByHandle","common/drive_handle.go:DriveHandleImpl.TcgDiscovery0")
p("C141","What Windows EnumDrives says about each drive it lists",
"Each drive listed was opened by the path the system gave for one of its disk interfaces, carries that path, and is described by that device's own answers: with a driver, the driver named is the first that accepted it, the model, serial and firmware texts are those of the identify data read from this device (for the miniport driver: from the SCSI port the device's own address names), and the TCG features are those of its own discovery answer; without a driver, no driver is named and model and serial are the storage descriptor's. The enumeration ends the program only over an impossible path size or a drive whose opening does (C140).",
"every system: devices, paths, handles, answers","all systems and enumerations; composition of the enumeration with all four drivers",
"plat_win/drive_factory.go:WindowsDriveFactory.EnumDrives","plat_win/drive_factory.go:WindowsDriveFactory.OpenByHandle")
p("C142","Inspecting a Linux drive sends only reading commands",
"Probing a device with either Linux driver, and any sequence of Init, Close, GetDrivingType, GetDriverName, TcgDiscovery0, NvmeGetLogPage and receiving SecurityCommand on a handle, sends only: SG_IO requests transferring from the device whose command is SECURITY PROTOCOL IN or an ATA PASS-THROUGH of IDENTIFY DEVICE, TRUSTED RECEIVE or TRUSTED RECEIVE DMA; NVMe admin commands Get Log Page, Identify or Security Receive. Fallbacks after refused commands are included.",
"every call sequence, every argument, every kernel answer and error","all histories and all answers, including every fallback path",
"common/drive_handle.go:DriveHandleImpl.SecurityCommand","plat_linux/sg_driver.go:SgDriver.OpenByFd","plat_linux/nvme_driver.go:LinuxNvmeDriver.OpenByFd")
p("C143","Inspecting a Windows drive sends only reading commands",
"OpenByPath, EnumDrives and inspecting programs on Windows make only DeviceIoControl requests that are questions to Windows or pass-through requests whose direction field says data-in and whose command is one of those of C142, whatever the outcome. That none of them asks for a reset is refuted: a disk that neither NVMe driver accepts is sent ATA PASS-THROUGH with PROTOCOL 0.",
"every system, drive, path, call sequence, outcome (errors and crashes included)","all histories and all answers; every probe order and fallback",
"plat_win/drive_factory.go:WindowsDriveFactory.OpenByPath","plat_win/drive_factory.go:WindowsDriveFactory.EnumDrives","plat_win/scsi_driver.go:ScsiDriver.OpenByHandle")
p("C144","From a Linux SATA device path to a reverted drive",
"If a SATA drive opened by path takes SECURITY PROTOCOL commands and its discovery answer (as the kernel delivered it) names an Opal 2 ComID, RevertTPer on the device made from the handle sends, after the opening commands, only SECURITY PROTOCOL commands of protocol 1 for that ComID (512 bytes out, 2048 in), carrying exactly the StartSession packet with the credential salted by the serial number IDENTIFY delivered and then at most the Revert packet under the session numbers assigned; success means both were sent and the kernel's last answer was accepted. If the controller refuses those commands, nothing but zeros reaches the drive, whatever the program does; that a success then still means the drive was told to revert is refuted.",
"every system, path, history, discovery answer, password, derivation function, kernel answers","the discovery data, the session numbers and the sequence of answers are unbounded",
"plat_linux/drive_factory.go:LinuxDriveFactory.OpenByPath","plat_linux/sg_driver.go:SgDriverHandle.SecurityCommand","tcg/session.go:TcgSession.Start","tcg/device.go:TcgDeviceImpl.RevertTPer")
p("C145","Enumerating an unchanged Linux machine again",
"On a machine that does not change (each path answers according to what it was sent since it was opened, whatever descriptor numbers and buffer addresses are used, the library's own buffers being 512-aligned), OpenByPath, EnumDrives and EnumVolumes give the same reports, or the same failure, every time, whatever happened before; EnumDrives reports, in the directory's order, exactly what OpenByPath of /dev/NAME would report at any other moment for each name that is a block device and contains neither loop nor sr, leaving out those that cannot be opened; adding one drive adds at most its own report, leaves every other report and their order unchanged, and cannot make a failing EnumDrives succeed.",
"every unchanging machine, pair of histories, path, list of drives, mount table","a relation between two runs with different histories and descriptor numbers",
"plat_linux/drive_factory.go:LinuxDriveFactory.EnumDrives","plat_linux/drive_factory.go:LinuxDriveFactory.OpenByPath","plat_linux/volume.go:EnumVolumes","plat_linux/sg_driver.go:SgDriver.doTaskFileCmd")
p("C146","Enumerating an unchanged Windows machine again",
"On a machine that does not change (each drive, port and volume answers according to what it was sent through a handle since that was opened, whatever handle numbers and buffer addresses are used, the library's own buffers being 512-aligned), OpenByPath, EnumDrives and EnumVolumes give the same reports, or the same failure, every time, whatever happened before. Where SetupAPI lists devices as documented, EnumDrives reports, in order, exactly what OpenByPath would report for each listed path at any other moment, leaving out those that cannot be opened; adding one drive adds at most its own report and leaves every other report and their order unchanged.",
"every unchanging machine, pair of histories, path, device list of any length, set of volumes","a relation between two runs with different histories, handle numbers and addresses",
"plat_win/drive_factory.go:WindowsDriveFactory.EnumDrives","plat_win/drive_factory.go:WindowsDriveFactory.OpenByPath","plat_win/volume.go:EnumVolumes","plat_win/scsi_driver.go:scsiSecurityCommand")
p("C147","Health data of a Linux drive opened by path",
"NvmeGetLogPage on a drive opened by path as an NVMe drive sends only Get Log Page commands for that namespace, page and length on the descriptor opened, and returns what the last of them delivered, or the last one's error. ReadSmart on a SATA drive opened by path sends one or two SMART READ DATA and at most two SMART READ THRESHOLDS requests and nothing else; if it succeeds, and the drive answers each request with a full block, every value and every threshold reported is the one at its place in that block; such a drive without sense data is read successfully, and no answer ends the program. That the thresholds always come from a READ THRESHOLDS answer is refuted: if the first such request fails without data and its repetition succeeds, the attribute values are reported as thresholds.",
"every system, path, history, page and length, timeout, kernel answer and error","every byte sequence a drive can answer and every failure pattern, composed over probing, retries and decoding",
"common/drive_handle.go:DriveHandleImpl.NvmeGetLogPage","ata_util/utils.go:ReadSmart","plat_linux/sg_driver.go:SgDriver.doTaskFileCmd","plat_linux/drive_factory.go:LinuxDriveFactory.OpenByPath")
p("C148","The Linux development program",
"cmd/develop on Linux either ends with /dev/nvme0n1 open or crashes, and crashes only because /dev/nvme0n1 could not be opened (after printing that error), because a drive's discovery answer was malformed while it was being opened or listed, or because a mounted device is called partition 0; on a machine where /dev/nvme0n1 cannot be opened it always crashes. A run to the end prints the error of each failed call, one numbered line per listed drive and volume in order, the information of /dev/nvme0n1 and, last, the log page; it closes only what EnumDrives opened. On an NVMe drive that page is what one Get Log Page of 516 bytes of page 2 for all namespaces delivered (the page has 512; the program passes the size of the Go structure in memory), preceded by that command's error if it failed.",
"every machine: drives, mount table, outcomes of all calls, earlier history","a whole program over every machine; all crash conditions",
"cmd/develop/main_linux.go:main","plat_linux/drive_factory.go:LinuxDriveFactory.OpenByPath")
p("C149","The Windows development program",
"cmd/develop on Windows tries \\\\.\\PhysicalDrive1, lists the drives and lists the volumes, in that order; an error of a call is printed and the run goes on, so it needs no particular drive, and it crashes only if one of the three calls does (a drive or listed device whose opening crashes, an impossible path size, a volume with endless mount points or too many extents). What it prints is each error and one numbered line per drive and volume, in order. Every DeviceIoControl it makes reads from a drive or asks Windows a question.",
"every Windows machine: drives, volumes, outcomes of all calls, earlier history","a whole program over every machine; all crash conditions",
"cmd/develop/main.go:main","plat_win/drive_factory.go:WindowsDriveFactory.EnumDrives","plat_win/volume.go:EnumVolumes")
p("C150","Health data of a Windows drive opened by path",
"ReadSmart on a drive opened by path and driven by WindowsAtaDriver or WindowsScsiDriver sends one or two SMART READ DATA requests to the handle opened and, exactly if those were taken as successful, one or two SMART READ THRESHOLDS requests, nothing else (the SCSI form asks for protocol 0, a reset, each time). It succeeds exactly if both were taken as successful; every value and threshold reported is then the one at its place in the block the last request of each kind handed over; no answer ends the program. Taken as successful means: Windows says so and, for SCSI, the sense key is 0, and, for ATA, the status bits ERR and DRQ are clear, which are however looked at only after a direct request. That an error reported by the drive is always reported is refuted: after a failed direct request the drive's status is ignored. On both NVMe drivers ReadSmart is refused and nothing is sent. NvmeGetLogPage sends one protocol-specific query for the page asked for if the driver is WindowsNvmeDriver, and returns the data behind a well-formed header or an error; with every other driver it sends nothing and is refused.",
"every Windows system, path, history, timeout, page and length, answer and error","every byte sequence a drive can answer and every failure pattern, composed over probing, fallbacks and decoding",
"ata_util/utils.go:ReadSmart","plat_win/ata_driver.go:AtaDriver.doTaskFileCmd","plat_win/scsi_driver.go:ScsiDriver.doTaskFileCmd","plat_win/windows_nvme_driver.go:WindowsNvmeDriverHandle.NvmeGetLogPage","plat_win/drive_factory.go:WindowsDriveFactory.OpenByPath")
p("C151","Programs that only look at the drives of a Linux machine",
"A program may open any number of drives, list drives and volumes, and call Init, Close, GetDrivingType, GetDriverName, TcgDiscovery0, NvmeGetLogPage and SecurityCommand in the receiving direction on its handles, in any order and choosing each call by the earlier results. Whatever the machine answers (each answer may depend on everything done to the machine before, through any handle), every ioctl the program causes is an SG_IO request reading from the device (SECURITY PROTOCOL IN or an ATA PASS-THROUGH of IDENTIFY DEVICE, TRUSTED RECEIVE or TRUSTED RECEIVE DMA) or an NVMe Get Log Page, Identify or Security Receive.",
"every program of such calls, of any length and over any number of handles; every machine","unbounded interleavings of handles and all machine answers",
"plat_linux/drive_factory.go:LinuxDriveFactory.OpenByPath","plat_linux/drive_factory.go:LinuxDriveFactory.EnumDrives","plat_linux/volume.go:EnumVolumes","common/drive_handle.go:DriveHandleImpl.TcgDiscovery0")
p("C152","Commands reach only the drive they were meant for (Linux)",
"In a program using any number of handles in any order, closing them, reusing closed ones and listing drives in between: every command, probe and close of a call on a handle acts on a descriptor that is at that moment open on the path the handle was opened with, those of OpenByPath(p) on one open on p, those of EnumDrives on ones open on /dev/NAME. So nothing acts on a closed descriptor, whose number may belong to another drive by then, nothing is closed twice, and two open handles never share a descriptor. (The system never hands out a descriptor that is open.) That closing every handle releases every descriptor is refuted: Close of a handle no driver accepted releases nothing.",
"every program, every machine that does not hand out open descriptors","unbounded histories of opens and closes, descriptor reuse",
"plat_linux/drive_factory.go:LinuxDriveFactory.OpenByPath","plat_linux/drive_factory.go:LinuxDriveFactory.EnumDrives","common/drive_handle.go:DriveHandleImpl.Close","plat_linux/sg_driver.go:SgDriverHandle.Close")
p("C153","Programs that only look at the drives of a Windows machine",
"A program may open any number of drives, list drives and volumes, and call Init, Close, GetDrivingType, GetDriverName, TcgDiscovery0, NvmeGetLogPage and SecurityCommand in the receiving direction on its handles, in any order and choosing each call by the earlier results. Whatever the machine answers (each answer may depend on everything done to the machine before, through any handle), every DeviceIoControl the program causes reads from a drive or asks Windows a question.",
"every program of such calls, of any length and over any number of handles; every machine","unbounded interleavings of handles and all machine answers",
"plat_win/drive_factory.go:WindowsDriveFactory.OpenByPath","plat_win/drive_factory.go:WindowsDriveFactory.EnumDrives","plat_win/volume.go:EnumVolumes","common/drive_handle.go:DriveHandleImpl.TcgDiscovery0")
p("C154","Commands reach only the drive they were meant for (Windows)",
"In a program using any number of handles in any order, closing them, reusing closed ones and listing drives and volumes in between: every DeviceIoControl and CloseHandle of a call on a drive handle acts on a system handle that is at that moment open on the path the drive was opened with, or on the SCSI port \\\\.\\SCSIn: that device itself named; those of OpenByPath(p) likewise, through handles that very call obtained; EnumDrives and EnumVolumes use only handles they obtained themselves, on devices or ports respectively volumes. So nothing acts on a closed system handle, whose number may belong to something else by then, nothing is closed twice, and two open drive handles never share one. (Windows never hands out a handle that is open.) That closing every drive handle releases every system handle is refuted: the port handle of the miniport driver is never closed.",
"every program, every machine that does not hand out open handles","unbounded histories of opens and closes, handle number reuse",
"plat_win/drive_factory.go:WindowsDriveFactory.OpenByPath","plat_win/drive_factory.go:WindowsDriveFactory.EnumDrives","plat_win/volume.go:EnumVolumes","common/drive_handle.go:DriveHandleImpl.Close","plat_win/nvme_win_driver.go:NvmeWinDriverHandle.Close")
p("C155","Other handles do not change what a drive handle does (Linux)",
"Take any program that at some point opens a drive and before, between and after uses any other handles, lists drives and volumes. Everything the opened handle does is what it would do alone: there is a system on which only this path is opened, whose answers are answers the machine gave to the same requests, such that the handle opened there has the same descriptor, driving type and driver name; the calls the program makes on the handle, made there one after another with nothing in between, give the same results, the same errors, the same returned bytes and registers, leave the same drive information and open/closed state, and send the same ioctls with the same contents, in the opening and afterwards. Opening fails in a program exactly as it fails alone. So every property proved of a handle alone on any system holds of it in any program. That the system can be the same machine without the rest of the program is refuted: what was done through other handles can change a drive's answers.",
"every program (any number of handles and calls, any interleaving), every machine","unbounded interleavings of calls on several handles; all machine answers",
"plat_linux/drive_factory.go:LinuxDriveFactory.OpenByPath","common/drive_handle.go:DriveHandleImpl.Init","common/drive_handle.go:DriveHandleImpl.SecurityCommand","plat_linux/nvme_driver.go:LinuxNvmeDriver.OpenByFd","plat_linux/sg_driver.go:SgDriver.OpenByFd")
p("C156","Listing drives in a running program (Linux)",
"EnumDrives at any point of any program on any machine returns what it returns alone on a system whose answers are those the machine gave: the same drives in the same order with the same information, or the same error, after the same file operations. So every property proved of EnumDrives alone holds whatever else the program has open.",
"every program, every machine","unbounded programs; all machine answers",
"plat_linux/drive_factory.go:LinuxDriveFactory.EnumDrives","plat_linux/drive_factory.go:LinuxDriveFactory.OpenByPath")
p("C157","Other handles do not change what a drive handle does (Windows)",
"Take any program that at some point opens a drive and before, between and after uses any other handles, lists drives and volumes. Everything the opened handle does is what it would do alone: there is a system on which only this path is opened, whose answers are answers the machine gave to the same requests, such that the handle opened there, used alone with the calls the program makes on this handle, gives the same reply to each (outcome, registers, buffer), ends in the same state (information, open or closed, same driver) and performs the same CreateFile, DeviceIoControl and CloseHandle actions, during the opening and later. An opening that fails in a program fails in the same way alone. The system cannot always be the same machine without the rest of the program (refuted with a counterexample).",
"every program (any number of handles and calls, any interleaving), every machine","unbounded interleavings of calls on several handles; all machine answers",
"plat_win/drive_factory.go:WindowsDriveFactory.OpenByPath","common/drive_handle.go:DriveHandleImpl.Init","common/drive_handle.go:DriveHandleImpl.SecurityCommand","plat_win/nvme_win_driver.go:NvmeWinDriverHandle.Close","plat_win/scsi_driver.go:ScsiDriver.doTaskFileCmd")
p("C158","Listing drives and volumes in a running program (Windows)",
"EnumDrives and EnumVolumes at any point of any program on any machine return what they return when nothing else happened, on a machine whose answers are those this one gave to the same requests: the same drives or volumes in the same order with the same information, or the same error or panic, after the same system calls. So every property proved of the enumerations alone holds whatever else the program has open.",
"every program, every machine","unbounded programs; all machine answers",
"plat_win/drive_factory.go:WindowsDriveFactory.EnumDrives","plat_win/volume.go:EnumVolumes")
p("C159","A device error's message states the device's numbers",
"Whatever call on a drive handle fails with a DparmError: on a Linux SG drive its text is 'SCSI status: SS, Sense key: 0xKK, ASC: 0xAA, ASCQ: 0xQQ', over the Windows SCSI driver the same with capital S and K, over the Windows ATA driver 'ATA Status: SS', where each pair is two lower-case hexadecimal digits denoting the error's DriverStatus and, of its SenseData, the lower half of byte 2, byte 12 and byte 13; so the four numbers can be read back from the text. Calls on NVMe drives never return such an error. That these are the device's sense key and codes is refuted for descriptor-format sense data (response code 72h), whose key and codes are elsewhere.",
"every call on every handle of every driver, every device answer","all status and sense bytes, all call histories",
"plat_linux/sg_driver.go:doTaskFileCmd","plat_win/scsi_driver.go:doTaskFileCmd","plat_win/ata_driver.go:doTaskFileCmd","common/errors.go:DparmError","scsi/types.go:SENSE_DATA.GetSenseKey")
p("C160","The verdict 'TCG not supported' is exactly the error text",
"When TcgDiscovery0 fails on a handle of any driver of the library, the drive's TcgSupport becomes -1 exactly when the error's text, numbers included, is 'not supported', and not -1 otherwise; no device error, whatever numbers it contains, is taken for it, nor any operating system error unless the system words one that way. On a closed handle the text is 'not supported', the verdict -1 and nothing is sent.",
"every driver, every device and system answer, every handle state","all answers and error numbers",
"common/drive_handle.go:DriveHandleImpl.TcgDiscovery0","common/drive_handle.go:DriveHandleImpl.SecurityCommand","common/errors.go:DparmError")
p("C161","Nested errors keep and quote their cause",
"A NestedError's text is its message, ': ' and the text of its cause, and Cause returns that cause; a chain of them reads from the outermost message to the innermost text. EnumDrives on Linux returns an error exactly when /sys/block cannot be read, and then the text is 'open /sys/block failed: ' followed by the system's. ReadBasicInfo returns one exactly when go-diskfs or HDIO_GETGEO fails, naming the path and the step. The identifier lookup fails exactly when the directory cannot be read or a link cannot be resolved, naming the first such entry in directory order.",
"every chain of errors, every directory listing and answer of the system","unbounded chains and listings",
"common/errors.go:NewNestedError","common/errors.go:NestedError","plat_linux/utils.go:ReadBasicInfo","plat_linux/drive_factory.go:getIdInfo","plat_linux/drive_factory.go:LinuxDriveFactory.EnumDrives")
p("C162","Numbers in messages are complete and exact",
"A TcgError's text is 'tcg error: ' and its status as a decimal number without leading zeros, so different statuses have different texts; the errors without a number have five fixed texts that differ from each other and from every status; a failed authentication and a wrong identity size are reported in the same form. The Windows NVMe driver's complaint about a log page quotes both header fields as the system returned them, in hexadecimal, and at least one of them is not 48. Reading an MBR has an error text exactly when it fails, and the text gives the cause, the number of bytes read or the two bytes found in place of the signature.",
"every status and number, every answer of the system","all 64-bit numbers",
"tcg/errors.go:TcgError","tcg/session.go:TcgSession","plat_win/windows_nvme_driver.go:WindowsNvmeDriverHandle","internal/direct_mbr/table.go:Read")
p("C163","One call does a bounded amount of work (Linux)",
"Whatever the drives and the system answer, at any point of any program: one call sends at most a fixed number of commands to drives and then returns - it cannot be kept busy by a drive that misbehaves. OpenByPath: at most 8 commands and 13 system calls in all; EnumDrives: 8 commands and 15 system calls per name in /sys/block, plus one; EnumVolumes: no command, two system calls per line of /proc/mounts, plus one; TcgDiscovery0 and SecurityCommand: 1 command on NVMe, 4 on SCSI; DoTaskFileCmd: 2; NvmeGetLogPage: one command per 4096 bytes begun; Close: one system call. Every one of these limits is reached by some drive. The commands of a whole program are bounded by the sum.",
"every program, every call, every machine","all device answers, unbounded programs",
"plat_linux/sg_driver.go:SgDriver.OpenByFd","plat_linux/nvme_driver.go:LinuxNvmeDriverHandle.NvmeGetLogPage","plat_linux/drive_factory.go:LinuxDriveFactory.OpenByPath","plat_linux/drive_factory.go:LinuxDriveFactory.EnumDrives","common/drive_handle.go:DriveHandleImpl.SecurityCommand")
p("C164","One call does a bounded amount of work (Windows)",
"Whatever the drives and the system answer, at any point of any program: one call makes at most a fixed number of DeviceIoControl requests and then returns. OpenByPath: at most 13 requests and 16 system calls in all; EnumDrives: 13 requests and 21 system calls per device found, plus three; EnumVolumes: two requests and 8 system calls per volume, plus four; TcgDiscovery0 and SecurityCommand: 1 request over the miniport driver, 2 over the Windows NVMe driver and the ATA driver, 4 over the SCSI driver; DoTaskFileCmd: 2; NvmeGetLogPage: 1; Close: one system call. Every one of these limits is reached by some drive.",
"every program, every call, every machine","all device and system answers, unbounded programs",
"plat_win/drive_factory.go:WindowsDriveFactory.OpenByPath","plat_win/drive_factory.go:WindowsDriveFactory.EnumDrives","plat_win/volume.go:EnumVolumes","plat_win/scsi_driver.go:ScsiDriver.doTaskFileCmd","common/drive_handle.go:DriveHandleImpl.SecurityCommand")
p("C165","Enumerations end when the system's lists do (Windows)",
"On a system on which SetupDiEnumDeviceInfo fails from some index n on, EnumDrives ends, whatever else the system answers: it looks at no more than n devices, makes at most 13 n requests and 3 + 21 n system calls. On a system on which FindNextVolume fails after n successes, EnumVolumes ends after looking at no more than n + 1 volumes, with at most two requests and 8 system calls each, plus four. Without such an end EnumDrives does not return: on a system that always has a further device it asks for ever.",
"every system and history, every length of the lists","unbounded lists of devices and volumes, all answers",
"plat_win/drive_factory.go:WindowsDriveFactory.EnumDrives","plat_win/volume.go:EnumVolumes","plat_win/setupapi.go:SetupDiEnumInterfaceDevice")
p("C166","Names survive the way through a Go string (Windows)",
"A name in well-formed UTF-16 becomes the string that spells the same code points in UTF-8, up to the first NUL, and passing that string to CreateFile through OpenDevice hands the system exactly the original units; with a Go toolchain from 1.21 on this round trip holds for every name without a NUL, unpaired surrogates included, so different names never become the same string. With an older toolchain (go.mod asks for 1.18) it is refuted for unpaired surrogates: two different device paths become one string and neither can be opened. No conversion makes or loses an ASCII character: the ASCII units handed to CreateFile are the ASCII bytes of the path in order, for malformed and overlong UTF-8 too. A path with a NUL never reaches the system; a plain ASCII path reaches it as it is; of paths that are not UTF-8 several can denote the same file (refuted otherwise).",
"every sequence of 16-bit units, every byte string","all strings",
"plat_win/utils.go:OpenDevice","plat_win/drive_factory.go:WindowsDriveFactory.EnumDrives","plat_win/volume.go:EnumVolumes")
p("C167","EnumDrives opens exactly the listed devices under their own paths (Windows)",
"On a system whose SetupAPI lists the devices with the interface paths p1 ... pn (in UTF-16, each as long as it likes, answered as documented: a buffer too small is refused with the size needed) EnumDrives, if it succeeds, has called CreateFile exactly with p1 ... pn in this order, unit for unit, each after asking for that path once or twice and before anything else is done; the drives returned are those that could be opened, in the same order, and each reports the path it was opened under. What the drives answer makes no difference.",
"every list of devices and paths, every drive, every history","unbounded lists, all paths and answers",
"plat_win/drive_factory.go:WindowsDriveFactory.EnumDrives","plat_win/utils.go:OpenDevice","plat_win/setupapi.go:SetupDiEnumInterfaceDevice")
p("C168","A volume's Path is its name, and leads back to its own disk (Windows)",
"The Paths EnumVolumes reports are, in order, the names under which the volumes were opened, in UTF-8, and no such name ends in a backslash or contains a NUL. So if the system gave different volumes different names, handing a reported Path to OpenDriveByVolumePath opens the disk of that very volume's first extent and no other.",
"every list of volumes and names, every system and history","unbounded lists, all names",
"plat_win/volume.go:EnumVolumes","plat_win/volume.go:EnumVolumeContextImpl.OpenDriveByVolumePath")
p("C169","Log pages decode into the exported structures",
"Any buffer of at least 512 bytes decodes, in little-endian order, into nvme.SmartLogPage with every field at the place NVMe gives it and no other field; the same for 32 bytes and nvme.SanitizeLogPage; every shorter buffer is an error, never a partly filled success. With the decoder's default (big-endian) options a number comes out right exactly if its bytes are a palindrome. End to end: NvmeGetLogPage of page 2 with a length of 512 to 4096 on a Linux NVMe drive opened by path is one command, its result always decodes, and if the controller wrote the page the fields are those the controller wrote. In memory the structure is 516 bytes long, not 512, so cmd/develop asks the controller for four bytes more than the page has.",
"every buffer, every drive, path, history, namespace and length","every content of the page",
"nvme/types.go:SmartLogPage","nvme/types.go:SanitizeLogPage","internal/utils.go:GetStrucOptions","plat_linux/nvme_driver.go:LinuxNvmeDriverHandle.NvmeGetLogPage","cmd/develop/main_linux.go:main")
p("C170","Raw descriptors decode into the exported structures",
"TcgRawFeatures holds, for each code, the bytes of the last descriptor with that code of the drive's discovery answer. Decoding them with the Discovery0 structure of the code succeeds exactly if they are at least as long as the structure, and then every field is what the TCG specifications put at its place. For descriptors of the standard lengths this is so for geometry, Enterprise, Opal 1 and 2, single user mode and data store; Discovery0TPerFeature and Discovery0LockingFeature are 17 bytes long, one more than the standard descriptors, so decoding these always fails.",
"every descriptor, every conforming discovery answer, every drive, path and history","every content and length",
"tcg/types.go:Discovery0TPerFeature","tcg/types.go:Discovery0LockingFeature","tcg/types.go:Discovery0GeometryReportingFeature","tcg/types.go:Discovery0OpalSSCFeatureV200","tcg/types.go:Discovery0EnterpriseSSCFeature","common/drive_handle.go:DriveHandleImpl.TcgDiscovery0")
p("C171","Descriptors obtained and given back (Linux)",
"Whatever the machine answers, in any program: opening a drive obtains no descriptor if the device cannot be opened, one if it can, and a second one - the file diskfs opens to read the partition table - if the table can be read; it gives none back. Closing a handle gives back one descriptor if the handle has a driver and is not closed yet, and none otherwise; no other call on a handle obtains or gives back any. Listing volumes gives back none. So at every moment what was obtained is at least what was given back plus the open handles plus one for every partition table read: the files opened for the tables are given back by no call, and a handle no driver accepted can never give its descriptor back. Refuted: that a program that closes all its handles gives everything back. Reading the basic information makes at most five calls, in a fixed order, its ioctls go to the drive's own descriptor, and the disk is read only if it has an MBR.",
"every program, every call, every machine","all answers of the system, unbounded programs",
"plat_linux/utils.go:ReadBasicInfo","plat_linux/drive_factory.go:LinuxDriveFactory.OpenByPath","plat_linux/drive_factory.go:LinuxDriveFactory.EnumDrives","plat_linux/volume.go:EnumVolumes","common/drive_handle.go:DriveHandleImpl.Close")
p("C172","System handles obtained and given back (Windows)",
"Whatever Windows answers, in any program, counting CreateFile, device information sets and volume searches: OpenByPath that fails has given back everything it obtained; OpenByPath that returns a drive has obtained its device and, under the miniport NVMe driver only, one more handle, that of the SCSI port. Closing a drive handle gives back one system handle if it has a driver and is not closed yet, and none otherwise; no other call on a handle obtains or gives back any. EnumVolumes gives back all it obtained, also when it panics. EnumDrives gives back all but one handle for every drive it lists that has no driver or the miniport driver. So every program always holds at least one system handle per open drive handle, and exactly one if none of its drives is without driver or under the miniport driver and no call panics. Refuted: that a program that closes all its handles gives everything back. A drive handle that is not open can never be opened or give back anything again.",
"every program, every call, every system","all answers of the system, unbounded programs",
"plat_win/drive_factory.go:WindowsDriveFactory.OpenByPath","plat_win/drive_factory.go:WindowsDriveFactory.EnumDrives","plat_win/volume.go:EnumVolumes","plat_win/nvme_win_driver.go:NvmeWinDriverHandle.Close","common/drive_handle.go:DriveHandleImpl.Close")
p("C173","Passwords become the standard PBKDF2 key",
"With hashing on, TcgHashPassword returns D0, 20h and the 32-byte key PBKDF2-HMAC-SHA1 (RFC 8018, RFC 2104, FIPS 180-4) of the first 32 bytes of the password, with the drive's serial number as salt and 75000 iterations; with hashing off D0, the length and the first 32 bytes themselves. The streaming implementation computes SHA-1 of the whole message in whatever pieces it is written, HMAC again after every reset, and PBKDF2 for every iteration count and key length; it never panics. So the StartSession and Authenticate commands and the first command of RevertTPer carry exactly that credential, also on a drive opened from its path (NVMe and SATA on Linux) or handle (Windows miniport), salted with the serial number of its IDENTIFY data.",
"every password, serial number, division into pieces, iteration count and key length; every session and drive","every message length and content; 75000 iterations",
"tcg/utils.go:TcgHashPassword","tcg/session.go:TcgSession.Start","tcg/session.go:TcgSession.Authenticate","tcg/device.go:TcgDeviceImpl.RevertTPer")
p("C174","Trailing NUL bytes of a password do not count",
"With hashing on, two non-empty passwords whose first 32 bytes agree once filled up to 32 with NUL bytes are interchangeable: TcgHashPassword returns the same bytes, and Start, Authenticate and RevertTPer (non-PSID) send the same commands and give the same results. Refuted: that this holds with hashing off or for leading NULs.",
"every pair of passwords, session, drive and history","every password",
"tcg/utils.go:TcgHashPassword","tcg/session.go:TcgSession.Start","tcg/session.go:TcgSession.Authenticate","tcg/device.go:TcgDeviceImpl.RevertTPer")
p("C175","From a Linux device path to the factory password",
"On an NVMe or SATA drive opened by path whose discovery answer lists Opal v2 with ComID c (and not Opal v1), GetDefaultPassword sends, after the commands of opening, only protocol 1 commands of ComID c: a StartSession without credential and at most one Get of the PIN column of C_PIN_MSID. It returns a text only if both were sent and the last answer the kernel delivered was accepted and its fifth token is that text.",
"every system, path, clock, answers and earlier history","every sequence of answers and every length of polling",
"plat_linux/drive_factory.go","plat_linux/sg_driver.go:SgDriverHandle.SecurityCommand","tcg/device_opal.go:getDefaultPassword","tcg/device_opal.go:TcgDeviceOpal2.GetDefaultPassword")
p("C176","From a Windows device to the factory password",
"On a drive opened through the NVMe miniport driver whose discovery answer lists Opal v2 with ComID c (and not Opal v1), GetDefaultPassword issues on the SCSI port handle, after the requests of opening, only security commands of protocol 1 and ComID c: a StartSession without credential and at most one Get of the PIN column of C_PIN_MSID. It returns a text only if both were issued, Windows reported the last one as successful, the page it delivered was accepted and its fifth token is that text.",
"every system, device handle, clock, answers and earlier history","every sequence of answers and every length of polling",
"plat_win/drive_factory.go","plat_win/nvme_win_driver.go","tcg/device_opal.go:getDefaultPassword","tcg/device_opal.go:TcgDeviceOpal2.GetDefaultPassword")
p("C177","A hashed password is framed twice, so no Opal PIN of up to 32 bytes can match it",
"With password hashing on (the default), the challenge a drive reads in the one StartSession or Authenticate is the 34 bytes D0h, 20h and the 32-byte derived key, under every reading of the packet; with hashing off it is the password itself. Hence on a drive that opens a session only to somebody presenting one of its PINs, and whose PINs have at most 32 bytes (the Opal limit), Start with hashing never succeeds for that authority, and RevertTPer with a SID password fails after one StartSession without sending a Revert, whatever the password - the right one included. With isPsid the challenge is the PSID itself.",
"every non-empty password, key derivation, serial number, SP, authority, session numbers, drive, clock and history","every password and every drive that checks PINs",
"tcg/session.go:TcgSession.Start","tcg/session.go:TcgSession.Authenticate","tcg/utils.go:TcgHashPassword","tcg/command.go:TcgCommand.AddStringToken","tcg/device_opal.go:revertTPer")
p("C178","No session is ever given back: on a drive that keeps one session with the Admin SP, everything after the first fails",
"On a drive that opens a session with the Admin SP only while none is open, and keeps it until an end-of-session token or an executed Revert (no timeout), a successful Start leaves the session open for ever: every later sequence of library calls - new sessions, Start, Authenticate, Close, table reads, GetDefaultPassword, RevertTPer, waiting, other traffic - sends neither an end of session nor a Revert, and every Start on the Admin SP, GetDefaultPassword and RevertTPer (PSID included) in it fails. GetDefaultPassword leaves such a session as soon as it has asked for the PIN, RevertTPer when its Revert was refused: so after a successful GetDefaultPassword no RevertTPer can succeed.",
"every such drive, program of calls, password, clock and earlier history","every program and every drive state",
"tcg/session.go:TcgSession.Close","tcg/session.go:TcgSession.Start","tcg/device_opal.go:getDefaultPassword","tcg/device_opal.go:revertTPer")

p("C179","A drive that answers by the book is served, and only the PSID reverts it through the PSID",
"If the drive takes the StartSession packet and, possibly after polls answered by 'more outstanding, nothing yet' and within ten seconds, delivers a SyncSession result with status success - its host and TPer session numbers encoded as a tiny atom or as a short integer atom of any width, any further parameters, empty atoms anywhere - then Start returns nil and the session carries exactly those two numbers; if it delivers a result with a non-zero status, Start returns that TCG status and the session is unchanged. RevertTPer then succeeds exactly if the Revert is answered with status 0 and otherwise reports the status; GetDefaultPassword returns the byte string of the PIN cell in whichever encoding it is sent. With hashing off, an open session means the password is one of the drive's PINs, so on a drive that checks its PSID, RevertTPer with isPsid succeeds exactly when the password is the PSID.",
"every conforming drive and reply, atom encoding, number of polls, session number, password, PSID and earlier history","every reply a conforming drive may give, every password and history",
"tcg/session.go:TcgSession.Start","tcg/session.go:TcgSession.SendCommand","tcg/device_opal.go:revertTPer","tcg/device_opal.go:getDefaultPassword","tcg/response.go:TcgResponse.Commit")

p("C180","From the device path to the outcome: a Linux NVMe drive with a PSID is reverted by exactly that PSID, and its factory password is read",
"Take a drive opened by path through the Linux NVMe driver whose Level 0 answer lists Opal v2 (and not Opal v1), and whose controller, seen only through the admin ioctls it is asked, answers by the book: Security Sends and Receives of protocol 1 to its ComID succeed, some receives are answered by 'more outstanding, nothing yet', and then the reply is delivered, all within the ten seconds the library polls. If the controller grants an Admin SP session for the PSID authority to a StartSession presenting its PSID, refuses any other byte string with some status, and executes a Revert in the session it granted, then RevertTPer(password, isPsid) returns nil for every password of 1 to 400 bytes that is the PSID, and exactly the drive's refusal status for every other. If it grants an anonymous session and shows a byte string in the PIN column of C_PIN_MSID, GetDefaultPassword returns that byte string.",
"every machine, path, earlier history, controller, reply encoding, number of polls, session number, PSID and password","every controller that answers by the book and every password",
"plat_linux/drive_factory.go:LinuxDriveFactory.OpenByPath","plat_linux/nvme_driver.go:LinuxNvmeDriverHandle.DoNvmeAdminPassthru","tcg/session.go:TcgSession.Start","tcg/device_opal.go:revertTPer","tcg/device_opal.go:getDefaultPassword")

p("C181","From the device path to the outcome on a Linux SATA drive: the PSID and only the PSID reverts it, and its factory password is read",
"Take a drive opened by path through the SCSI generic driver (no NVMe driver accepting it) whose kernel translates SECURITY PROTOCOL commands, whose Level 0 answer lists Opal v2 (and not Opal v1), and which, seen only through the SG_IO requests it is asked, answers by the book: after a SECURITY PROTOCOL OUT of protocol 1 to its ComID some receives are answered by 'more outstanding, nothing yet', and then the reply is delivered, within the ten seconds the library polls. If it grants an Admin SP session for the PSID authority to a StartSession presenting its PSID, refuses any other byte string with some status, and executes a Revert in the session it granted, then RevertTPer(password, isPsid) returns nil for every password of 1 to 400 bytes that is the PSID, and exactly the drive's refusal status for every other. If it grants an anonymous session and shows a byte string in the PIN column of C_PIN_MSID, GetDefaultPassword returns that byte string.",
"every machine, path, earlier history, drive, reply encoding, number of polls, session number, PSID and password","every drive that answers by the book and every password",
"plat_linux/drive_factory.go:LinuxDriveFactory.OpenByPath","plat_linux/sg_driver.go:SgDriverHandle.SecurityCommand","tcg/session.go:TcgSession.Start","tcg/device_opal.go:revertTPer","tcg/device_opal.go:getDefaultPassword")

p("C182","From an open Windows device to the outcome on an NVMe drive behind a miniport: the PSID and only the PSID reverts it, and its factory password is read",
"Take a drive opened by handle on Windows that the NVMe miniport driver accepts, whose Level 0 answer lists Opal v2 (and not Opal v1), and which, seen only through the miniport requests it is asked, answers by the book: after a Security Send of protocol 1 to its ComID some Security Receives are answered by 'more outstanding, nothing yet', and then the reply is delivered in the first 2048 bytes of the 4096-byte page, within the ten seconds the library polls. If it grants an Admin SP session for the PSID authority to a StartSession presenting its PSID, refuses any other byte string with some status, and executes a Revert in the session it granted, then RevertTPer(password, isPsid) returns nil for every password of 1 to 400 bytes that is the PSID, and exactly the drive's refusal status for every other. If it grants an anonymous session and shows a byte string in the PIN column of C_PIN_MSID, GetDefaultPassword returns that byte string.",
"every Windows system, handle, earlier history, drive, reply encoding, number of polls, session number, PSID and password","every drive that answers by the book and every password",
"plat_win/drive_factory.go:WindowsDriveFactory.OpenByHandle","plat_win/nvme_win_driver.go:NvmeWinDriverHandle.DoNvmeAdminPassthru","tcg/session.go:TcgSession.Start","tcg/device_opal.go:revertTPer","tcg/device_opal.go:getDefaultPassword")

p("C183","On a drive that answers Authenticate by the book, the library's verdict is the wrong way round - and always positive with password hashing on",
"Take a drive that grants an anonymous session with a security provider and, in it, answers the Authenticate method by the book: TRUE to the PIN of the authority, FALSE to any other byte string, status success. With hashing off, NewTcgSession, Start without credential and Authenticate(authority, password) return nil for every password of 1 to 400 bytes except the PIN, and 'authentication failed: 1' for the PIN. With hashing on (the default) and a PIN of at most 32 bytes (the Opal limit), Authenticate returns nil for every non-empty password. A refusal by a non-zero status is reported with that status. The same from the device path, for a Linux NVMe drive that answers so when seen only through the ioctls it is asked, for a Linux SATA drive seen through its SG_IO requests, and from an open handle for an NVMe drive behind a Windows miniport seen through its control requests.",
"every machine, path, earlier history, drive, security provider, authority, PIN, password, reply encoding, number of polls and session number","every drive that answers by the book and every password",
"tcg/session.go:TcgSession.Authenticate","tcg/session.go:TcgSession.Start","tcg/utils.go:TcgHashPassword","plat_linux/drive_factory.go:LinuxDriveFactory.OpenByPath","plat_win/drive_factory.go:WindowsDriveFactory.OpenByHandle")

p("C184","The owner's revert on a drive that checks its SID PIN: decided by the derived key alone, and refused for every password if the PIN fits Opal's 32 bytes",
"Take a drive whose owner PIN (authority SID of the Admin SP) is some byte string and which answers by the book: a StartSession presenting the PIN is granted, one presenting any other byte string is refused with a status, and a Revert in the session granted is executed. Then RevertTPer(password, false) returns nil for exactly those non-empty passwords for which D0h 20h followed by the 32-byte PBKDF2 key of the password's first 32 bytes, salted with the drive's serial number, is the PIN, and the drive's own refusal status for every other. If the PIN has at most 32 bytes - Opal's limit - it is the refusal status for every non-empty password, the right one included. From the device path the same holds for a Linux NVMe and a Linux SATA drive, and from an open handle for an NVMe drive behind a Windows miniport, each seen only through the requests it is asked; and with the key derivation the library really uses (PBKDF2-HMAC-SHA1, 75000 iterations).",
"every machine, path or handle, earlier history, drive, PIN, password, reply encoding, number of polls, session number and refusal status","every drive that answers by the book and every password",
"tcg/device_opal.go:revertTPer","tcg/session.go:TcgSession.Start","tcg/utils.go:TcgHashPassword","plat_linux/drive_factory.go:LinuxDriveFactory.OpenByPath","plat_win/drive_factory.go:WindowsDriveFactory.OpenByHandle")

p("C185","Reading tables: on a drive that answers by the book, every OpalGetTable call of a session shows exactly the columns the drive sent, or the status it refused with",
"Take an Opal drive that grants a session (anonymous or with a credential, hashed or not) and then answers a sequence of Get requests by the book, each by a row of column-number/value pairs or by a refusal with a status, after any number of 'not yet' polls and with empty atoms anywhere. Then Start succeeds, and calling OpalGetTable with A8h and the 8-byte UID and any first and last column of 16 bits, any number of times on that session, gives for every call what the drive answered to that call: for a refusal the response together with that status as a TCG error; for a row of n columns a response of 10 + 4n tokens without error, in which token 3 + 4i is the i-th column's number and token 4 + 4i its value, GetUint32 returns the number, GetString returns a byte string's exact bytes in every encoding, and GetUint64, GetUint32 and GetUint8 return an unsigned value that fits. The request packets name exactly the table and columns asked for. From the device path the same holds for a Linux NVMe and a Linux SATA drive, and from an open handle for an NVMe drive behind a Windows miniport, each seen only through the requests it is asked.",
"every machine, path or handle, earlier history, drive, security provider, authority, credential, sequence of reads, reply, encoding, number of polls and session number","every number of reads in every order with every answer, over histories of arbitrary length",
"tcg/device_opal.go:TcgDeviceOpal2.OpalGetTable","tcg/device_opal.go:TcgDeviceOpal1.OpalGetTable","tcg/session.go:TcgSession.SendCommand","tcg/response.go:TcgResponse.GetToken","tcg/session.go:TcgSession.Start","plat_linux/drive_factory.go:LinuxDriveFactory.OpenByPath","plat_win/drive_factory.go:WindowsDriveFactory.OpenByHandle")

p("C186","On Windows, through the SCSI, ATA and storage-query drivers, no TCG call ever succeeds on a drive that answers only what it was told",
"Take a drive behind one of these three drivers that sends a packet only to a host that has given it one: as long as nothing but zeros arrived, whatever a request for its answer delivers, succeeding or failing, is at most an empty ComPacket (length 0). Then in every program of calls - any number of sessions at once, Start and Authenticate with any credential, table reads, GetDefaultPassword, RevertTPer with password or PSID, Close - every call that needs the drive returns an error and none panics, because the drive is never given anything but zeros: each request of the program either carries zeros only or is a request of 2048 bytes of protocol 1 from the drive's ComID. The same from the handle the factory opened.",
"every Windows system, handle, earlier history, data addresses, clock, device, ComID, drive that answers so, and every program of calls with every credential","every program of calls and every history",
"plat_win/scsi_driver.go","plat_win/ata_driver.go","plat_win/drive_factory.go:WindowsDriveFactory.OpenByHandle","tcg/session.go:TcgSession.SendCommand","tcg/session.go:TcgSession.Start","tcg/device_opal.go:revertTPer","tcg/device_opal.go:getDefaultPassword")

p("C187","A TCG client on one drive is not disturbed by what the program does with other drives",
"Take any program that at some point opens a drive and runs a TCG client on that handle - any number of sessions, Start, Authenticate, SendCommand, table reads, GetDefaultPassword, RevertTPer, Close, in any order and with any credential - while before that, and before each single SecurityCommand of the client, it does anything else: opens and closes other drives, sends security commands, task files or log page requests to them, lists drives and volumes, all of it depending in any way on how the dialogue has gone. Everything the client does is what it would do alone: there is a system on which only this path is opened, whose answers are answers the machine gave to the same requests, such that the same calls on the handle opened there return the same results, make the same SecurityCommand calls with the same bytes, leave the same sessions (numbers, state), and send the same ioctls (on Windows: perform the same actions). So every property proved of a TCG client on a handle alone holds of it in any program.",
"every machine (Linux and Windows), every program before the opening, every interleaved activity, every device, clock, and every program of TCG calls","unbounded interleavings at the granularity of single commands; all machine answers",
"tcg/session.go:TcgSession.SendCommand","tcg/session.go:TcgSession.Start","tcg/session.go:TcgSession.Authenticate","tcg/device_opal.go:revertTPer","tcg/device_opal.go:getDefaultPassword","common/drive_handle.go:DriveHandleImpl.SecurityCommand","plat_linux/drive_factory.go:LinuxDriveFactory.OpenByPath","plat_win/drive_factory.go:WindowsDriveFactory.OpenByPath")

p("C188","A drive that answers only what it is asked itself is not disturbed by the rest of the program (Linux)",
"Take a machine whose kernel never returns a descriptor that is still open, and a drive whose answers depend only on what was done on its own descriptor since it was opened (and the buffers handed over are where they would have been). Whatever a program does elsewhere - opening other drives or the same drive again, listing drives and volumes, calling and closing other handles, before and between the calls on this handle - nothing of it is done on this handle's descriptor, and as long as the handle is not closed the program's calls on it get the same replies, and send the same ioctls, as if they were the only calls made, on the very same machine. A TCG client on such a handle has the outcome it would have alone right after the opening; so over an NVMe drive that checks a PSID, a PSID revert in any program succeeds with the right PSID and with no other. Without the premise on the drive this fails: C155 refutes it for the same machine.",
"every Linux machine with fresh descriptors, every program before the opening, every interleaved activity and sequence of calls, every device, clock, PSID, password and program of TCG calls","unbounded interleavings; all machine answers",
"plat_linux/drive_factory.go:LinuxDriveFactory.OpenByPath","plat_linux/drive_factory.go:LinuxDriveFactory.EnumDrives","plat_linux/volume.go:EnumVolumes","common/drive_handle.go:DriveHandleImpl.SecurityCommand","common/drive_handle.go:DriveHandleImpl.Close","tcg/device_opal.go:revertTPer","tcg/session.go:TcgSession.SendCommand")
