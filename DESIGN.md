# Formal model of buteo-mtp: design

Target: `/repo` (sailfishos/buteo-mtp, pinned commit). The code is read as text; nothing
of it was built or run. Every Coq definition of the model carries a comment with the file
and lines it models and with what it simplifies.

## 1. Layout of rocq/theories

| files | contents |
|------|----------|
| Base, AList | words (u8..u64 with wrap-around), bytes, `outcome` = `Ret` / `UB` / `Abort`, association lists |
| Wire, WireSpec, WireProofs | MTPContainer, MTPTxContainer, MTPRxContainer, MtpInt128, object info, property values; the specification of the wire format is separate (WireSpec) |
| Ring, RingProofs, RingStop | BulkReaderThread's circular buffer shared by two threads, with every interleaving |
| Framing, BulkWriter, Events, Control | processReceivedData; BulkWriterThread; InterruptWriterThread with the event part of MTPTransporterUSB; ControlReaderThread on the control endpoint |
| PropCache, Pod, Factory | ObjectPropertyCache; PropertyPod tables; StorageFactory (handles, ids, routing) |
| Responder | MTPResponder: all operations, sessions, data phases, segmented sender, suspend/resume, deferred commands, events |
| RSpec, RLogic, ROne…RMisc, RColl, RPropList, RGetList | vocabulary and program logic for the responder |
| FS, FSSpec, FSReach, FS*… , FSProps, FSPlugin | FSStoragePlugin on a model file system with failing system calls, foreign changes and inotify notifications |
| Persist, Refs, FreeSpace, DateTime, Labels, Thumbs, Coherence, DevInfo, Inotify | id file, object references, free space announcements, timestamps, storage configuration, thumbnailer, cache coherence, device info, notification parser |
| *Proofs | lemmas |
| P_*.v | only the property theorems: statement, one-line proof from a lemma, `Print Assumptions`, and concrete cases (`ex_…`) meeting the hypotheses |

The environment (USB endpoint results, system call results, behaviour of the storage as
seen from the responder, thread schedule, kernel notifications) is a parameter or an
inductive relation, so theorems quantify over all its behaviours; nothing is bounded.

Naming: `Cnn_name` proves property Cnn, `Cnn_name_partial` proves a part of it (the full
English statement stays in properties.jsonl; what is missing is in MANIFEST.json),
`Cnn_name_refuted` proves that the code *violates* the statement, by a concrete history of
the model. Refutations are listed because a partial theorem with an explicit counterexample
for the rest settles the property. tools/manifest.py collects the names.

## 2. Trusted base

* The kernel of Coq 8.16.1 (re-checked by coqchk in vcheck). `vm_compute` is used in
  examples and refutations; coqchk re-checks those with the kernel's own reduction.
* Every theorem named in MANIFEST.json is followed by `Print Assumptions`, and each prints
  `Closed under the global context`: no axiom at all is used. vcheck additionally lists seven constants
  of `Coq.ssr.ssrunder` (`Under_rel.*`): they belong to Coq's standard library
  and come with loading it; no theorem depends on them.
* No axioms, no section-less Variable/Hypothesis, no Admitted, no functors, no module
  types, no kernel check switched off, no plugin.
* The model itself: that the definitions say what the C++ says. Each has its source lines;
  section 5 lists what is left out. Errors here are what the seeded wrong programs
  (`seeded/LOG.jsonl`) and the concrete examples are meant to catch.
* The specification vocabulary: WireSpec, RSpec, FSSpec and the small definitions at the
  head of the P_ files.

## 3. How the model abstracts

* **C++ undefined behaviour** (out-of-bounds access, null or dangling pointers, signed
  overflow where it matters) is the outcome `UB`; theorems that say something about a
  run either exclude it by hypothesis, prove it absent, or exhibit it in a refutation.
* **Threads**: small-step relations over atomic actions between lock operations or system
  calls (Ring, Events, RingStop). Qt's queued signals are explicit counters or queues.
* **Storage seen from the responder**: an arbitrary function of the whole history of calls
  (`env : list (act*ans) -> act -> ans`), so theorems hold for any plugin and any
  interleaved transport failures. Nested event loops (`processEvents` inside sendData)
  appear as signals delivered together with the answer (`a_async`).
* **File system** (FS): a finite map from paths to files/folders/links; system calls fail by
  an oracle indexed by a clock, foreign changes are arbitrary replacements of the disk
  between operations (`OWorld`), inotify notifications are arbitrary subject to the
  kernel's contract on cookies (stated in FSSpec/P_FS4).
* **Qt**: QHash/QMap/QVector/QString as association lists and lists of 16-bit units; iteration order of
  a hash is a parameter where it can be observed.

## 4. Property by property

Status as in MANIFEST.json, where the notes say what a partial claim leaves out.

| id | property | model and proof | theorems in | status |
|---|---|---|---|---|
| C01 | Integers survive the wire | Writer and reader of integers of every width over byte lists; round trip by induction on the width, for every offset and every suffix. | P_Wire | proved |
| C02 | Container header states the real length | Tx container as a byte buffer with header; invariant: length field = bytes written, for every sequence of writes, plus the explicit length setter. | P_Wire | proved |
| C03 | Growing the output buffer loses nothing | Capacity growth with 32-bit arithmetic; contents compared with an unbounded buffer for every write sequence. | P_Wire | proved |
| C04 | Strings survive the wire | QString as 16-bit units; encode/decode; induction on the string; byte order mark and embedded NUL treated separately. | P_Wire | partial |
| C05 | Arrays survive the wire | Arrays of every element width; induction on the array. | P_Wire | proved |
| C06 | Property values survive the wire for every data type | Property values of every MTP data type, typed by has_type; case analysis over types, induction for arrays. | P_Wire | proved |
| C07 | ObjectInfo datasets survive the wire | All 19 fields of the object info dataset, composition of C01 and C04. | P_Wire | proved |
| C08 | Parsing never leaves the received container | Reader with a distinct UB outcome; refuted by a container whose counts exceed it; partial: what was appended stays inside. | P_Wire | partial |
| C09 | Command parameters are what the initiator sent | Parameter vector of a received command against the bytes sent, for any number up to five. | P_Wire | proved |
| C10 | 128-bit object ids are ordered and counted as numbers | 16-byte little endian number; increment proved numeric by induction with carry; comparison analysed for both char signs. | P_Wire | partial |
| C11 | No received byte is lost, repeated or reordered | Two-thread transition system; invariant relating buffer contents to the stream; delivered ++ pending = received for every schedule. | P_Ring | proved |
| C12 | The USB reader never overwrites data still in use | Same system; the region of the read in flight is disjoint from both data regions in every reachable state. | P_Ring | proved |
| C13 | The USB reader cannot starve | Same system; from every reachable state a run of main-thread actions gives the idle reader room. | P_Ring | proved |
| C14 | Packet boundaries do not matter | processReceivedData as a loop over arbitrary chunks; induction on chunks: containers cut out equal those of the whole stream; reset starts afresh. | P_Framing | proved |
| C15 | Malformed container lengths cannot hang the transport | Same loop with fuel; divergence witness for zero; termination measure otherwise. | P_Framing | partial |
| C16 | Bulk writes deliver every byte in order or report failure | BulkWriterThread with an oracle for write(2); induction on the oracle run: concatenation of accepted bytes is a prefix, equal on success. | P_BulkWriter | proved |
| C17 | Transfers end with a short packet and only there | Same; last write short or empty exactly at multiples of 512. | P_BulkWriter | partial |
| C18 | The event queue is bounded and drops the oldest | Interrupt writer thread and event queue as a transition system; invariant on queue bound, order, once-only; draining run. | P_Events | proved |
| C19 | Event transmission never disturbs commands | Same system; invariants on when a transmission may start, failure counter, session change. | P_Events | proved |
| C20 | Sending data always completes | Same system; progress of the waiting loop in sendData; refuted with a reset. | P_Events | partial |
| C21 | Exactly one response per command | Responder monad with program logic (RLogic/ROne); per operation exactly one response in the log. | P_Responder | partial |
| C22 | Responses carry the transaction id of their command | Same logs: the id in the response container. | P_Responder | partial |
| C23 | Nothing but GetDeviceInfo and OpenSession works without a session | Gate lemma for the operations calling preCheck; no storage call, no change. | P_Responder | partial |
| C24 | Invalid transaction ids are rejected | Same gate with a wrong id. | P_Responder | partial |
| C25 | Session life cycle | Invariant on the session field over every input of the responder. | P_Responder | proved |
| C26 | Unknown operations are refused | Dispatch table: codes without a handler. | P_Responder | proved |
| C27 | Every advertised operation is implemented | Advertised list (from the tables) against dispatch, invariant over histories. | P_Adv | partial |
| C28 | Partial reads return exactly the requested range | Segmented sender: induction on the remaining length; bytes = requested range, for every storage answering reads correctly. | P_Read | proved |
| C29 | GetObject delivers the whole object | Same for whole objects. | P_Read | partial |
| C30 | A failed or cancelled object read is never reported as complete | Same with failing reads, packets and cancels: no OK response. | P_Read | partial |
| C31 | SendObject stores exactly the bytes received | Receiver of object data: induction on packets; writes performed = bytes received. | P_Send | partial |
| C32 | SendObject goes to the most recently announced object | State machine of announcements; invariant that nothing else disturbs it. | P_Send, P_SendInfo | partial |
| C33 | Cancelling a send removes the partial object | Cancel in every state of the data phase; storage calls made. | P_Send | partial |
| C34 | Partial writes need an open edit on that object | Invariant over histories on the open edit. | P_Misc | partial |
| C35 | Change events are filtered per object | Event filter per signal for every state. | P_Misc | partial |
| C36 | Suspension postpones, it does not lose | Container kept on suspend; sent on resume after any events. | P_Misc | partial |
| C37 | Commands received before storage is ready are executed later | Deferred input replayed; equality of final state and log with direct execution. | P_Misc | proved |
| C38 | Data phase must match its command | Check of the data header before parsing, for the operations doing it; refuted for the others. | P_Responder | partial |
| C39 | SetObjectPropList stops at the first failure and says where | Element loop; induction on the list; index reported; elements applied before it. | P_PropList | proved |
| C40 | GetObjectPropList is complete | Query loop; list of elements against a specification; count and bytes. | P_GetList | partial |
| C41 | Object handles are unique | Factory counter over any number of allocations; NoDup invariant below wrap. | P_Factory | partial |
| C42 | Handle, path and parent tables agree | FSStoragePlugin as a state monad with failing system calls; invariant `consistent` over reachable states; induction over histories. | P_FS, P_FS4, P_FS5 | partial |
| C43 | Sibling lists stay intact | Same invariant: child lists as linked siblings, no cycles, each object once. | P_FS, P_Lists | proved |
| C44 | Object enumeration is exact | Enumeration against the set of objects satisfying the filter, in every reachable state. | P_FS, P_FS4 | partial |
| C45 | Deletion removes the whole subtree and nothing else | Recursive deletion: induction on depth; what disappears, what stays. | P_DelAll, P_FS, P_FS4 | partial |
| C46 | Moving keeps identity | Move: handles, ids, contents of the moved tree before and after. | P_FS2, P_FS4, P_FS5 | partial |
| C47 | Copying leaves the source alone | Recursive copy: fresh handles, source untouched, contents equal. Names that are taken and a full disk: P_FS6. | P_FS2, P_FS5, P_FS6 | partial |
| C48 | Initiators cannot reach outside the exported folder | Path components; invariant that every path lies below the root; disk outside unchanged. | P_FS4 | partial |
| C49 | Invalid new names are refused | Rename check over every name; state equality. | P_FS2, P_FS5 | proved |
| C50 | Written data is the file | Write sequence; file content by induction over chunks. | P_FS3, P_FS5 | partial |
| C51 | Partial writes touch only their range | Partial write: content patched in the range only. | P_FS3 | proved |
| C52 | Reads are exact or refused | Read in every state: exact bytes or refusal. | P_FS3 | proved |
| C53 | Copying a file copies all its bytes | copyData loop; induction on remaining bytes. | P_FS3, P_FS4 | partial |
| C54 | Persistent ids survive restarts | Byte format of the id file; store/load round trip; restart as a function of the file; histories of restarts. | P_FS4, P_Persist | partial |
| C55 | Object references stay valid | Reference tables; invariant under deletion; file round trip; wire level. | P_Refs, P_RefsReq | partial |
| C56 | Timestamps survive | Civil date arithmetic over Z; formatting and parsing; mktime as an oracle with its POSIX contract. | P_DateTime | partial |
| C57 | Cached property values equal storage values | Responder cache over an abstract honest storage; invariant: cached value current or its change queued. The file system storage: a relation on states (FSVals: same item, allowed change of its info, events only added, new items have new handles) kept by every operation, with the notification handlers treated apart (FSVals2); handle freshness identifies the object before and after. | P_CohFS, P_Coherence | partial |
| C58 | The property cache is a faithful map | Cache as a map: specification by get after each operation. | P_PropCache | proved |
| C59 | External renames keep handles, external moves out delete | Sequence of notifications with cookies; pairing automaton compared with a specification. | P_Ann, P_FS4, P_FS5 | partial |
| C60 | Requests are routed to the storage that owns the object | Routing by storage id byte for every id and every history of storages. | P_Factory | proved |
| C61 | Excluded and escaping paths are never exported | Invariant that no tracked path is excluded, for histories without renames. | P_FS4 | partial |
| C62 | Exported storages have distinct folders and labels | Label numbering and path filter over every configuration. | P_Labels | partial |
| C63 | Every advertised property has a description | Tables of the property pod and of the device info, finite enumeration, for every code. P_Formats.v: the categories of formats against the documented kind of each (sound, picture, film). | P_Formats, P_Pod, P_PodDefault | partial |
| C64 | Thumbnails are requested once | Thumbnailer queues over every history; URL percent decoding modelled for the key. | P_Thumbs | partial |
| C65 | Free space changes are announced exactly on percent changes | Announcement automaton over every sequence of free-space readings. | P_FreeSpace | partial |
| C66 | Setting a device property takes effect or is refused | Responder operation; effect on the device info calls. | P_DevProp | partial |
| C67 | Received data is never left behind | As C11, with re-entrant notifications; refuted, and proved for calm schedules. | P_Ring | partial |
| C68 | Only configured folders are exported, and all of them | Same model as C62: exported list against configuration. | P_Labels | proved |
| C69 | Requested thumbnails are eventually fetched | Same model as C64: a run that fetches each request. | P_Thumbs | proved |
| C70 | Object properties agree with the object info | Property answers computed from the object info for every property and reachable state. | P_FSProps | proved |
| C71 | An accepted property value takes effect | Set-property path of the plugin; refuted; what does take effect. | P_FSProps | partial |
| C72 | Host requests and bus state changes on the control endpoint are passed on in order and each request is answered once | Control endpoint: the kernel's event/setup state machine and the control thread's loop; for every sequence of host requests: forwarded once, in order, answered by status, stall or acknowledgement; refuted for long Cancel data. | P_Control | partial |
| C73 | The device status answered is the one last set | Same model: status answered = last status set; refuted before the first set. | P_Control | partial |
| C74 | Suspending and resuming the bus loses nothing received afterwards | Receive ring extended with stopRead while the reader is in read(2); refuted; partial: nothing wrong is ever delivered, and stop/start with the thread ended loses nothing. | P_RingStop | partial |
| C75 | What the program can do is advertised, once, whatever the configuration file says | Constructor of the device info over every sequence of parser callbacks: built-in operations and formats present exactly once; refuted for events after a broken file. | P_DevInfo | partial |
| C76 | Names given to the device survive a restart | DOM update and re-parse of the two host-writable properties; restart as re-parse; refuted for blank values. | P_DevInfo | partial |
| C77 | The battery level reported and announced is the current one | Battery change automaton. | P_DevInfo | partial |
| C78 | No file system notification is lost, repeated or misread | Byte parser of inotify records: every list of records comes out once, in order. | P_Inotify | proved |
| C79 | The format a file is given follows from its extension and is one the device advertises | P_Formats.v: a second table from the documentation of the formats; FSNamed.v: an invariant of the scan (every info filled in is the file's). Extension table and last-dot rule for every path, composed with the advertised formats of the C75 model; refuted for Ogg. | P_DevInfo, P_Formats | partial |
| C80 | Queries and management operations ask the storage what the host asked and relay its answer | Each operation is specified as a script (questions, continuation on the answers, result); the handlers are proved to follow the scripts for every environment, by composition lemmas per monadic step. | P_Ops | proved |
| C81 | Changes made by other programs are announced to the host, exactly; the host's own are not | A relation logic over the storage monad: each step leaves the events alone, adds announced fresh handles or removes announced ones (grew/shrank, composable); handle supply freshness makes the added ones unknown before; refutations by kernel computation. | P_Ann | partial |
| C82 | Reading an object delivers the bytes of its file | Composition: the responder environment is the storage model replayed along the call log (Device.v); a guarded environment serves the file, the run is transported to the device because it asks only reads of the object (RExt.run_same), and C28/C29 give the packets; reads leave every view and file unchanged. | P_Device | proved |
| C83 | Sending an object stores exactly the bytes sent, in the file announced | Composition: the write calls made by C31 are replayed on the storage (DeviceSend.replay) and C51/C52 give the file; the dataset passes the wire codec, the responder and storage factory unchanged (P_SendInfo, any packets). | P_Device | proved |
| C84 | What is stored is what is read back | Sequencing of C83_announce, C83_send_object and C82_get_object over one device: state_after and runs compose (DeviceInfo.after_more, run_more). | P_Device | proved |
| C85 | Listings and object information tell what is in the storage | Composition: the request follows its protocol script (C80); the script is played on the storage state (DeviceOps.play_ask/play_end: the recorded answers are the storage answers), then C44/C70 describe the listing. | P_DeviceOps | partial |
| C86 | Delete, move and copy requests do to the files what they are for, and nothing else | Composition as in C85, with C45, C46, C47 and C47_outside (a copy, also a failing one, affects only its destination), and C47_handle (the handle of a failed copy names nothing but the destination), so that the clean-up after StoreFull deletes only the copy (C86_copy_full). | P_DeviceOps | partial |
| C87 | In-place editing changes exactly the bytes sent, only of the object being edited | REdit2: each request follows its script of storage calls, packet by packet (induction over the packets, refusal of the rest after a failed write); DeviceEdit.play_parts plays the writes on the storage (induction; consecutive writes join, wrote_app); P_Edit composes, also for a whole begin-write-end sequence. | P_Edit | proved |
| C89 | Every storage operation comes to an end | The model counts nested calls (fuel) and aborts when it runs out. FSFuel: more fuel never changes a result; FSTerm..FSTerm5: every operation needs only finitely much (recursion over the finite object tree, the finite disk, the finite tree being copied outside the target); P_Term composes; P_Enough turns it into the form the other claims use: what add, delete, move, rename and copy need ends with a result. This also removes the fuel caveat from the other storage claims. | P_Enough, P_Term | partial |
| C88 | SetObjectPropValue writes exactly the file name, and only of objects and properties that allow it | RSetProp.set_value_ok: the request follows its script of storage calls; P_SetProp plays the script on the storage with the rename theorems (C46, C49) and rename_terminates (C89) for the fuel; the tables are those of C63. | P_SetProp | proved |
| C90 | GetThumb sends the thumbnail the storage has | RThumb.thumb_ok steps through getThumbReq with the responder model; that the description asked with is that of the sample data is read off the property tables of Pod.v. | P_Thumb | partial |
| C91 | SendObjectPropList announces exactly the object its property list describes | RSendList.prop_list_ok: reading the list (reads_int, reads_variant), the scan as a verdict on the list (specification judged), the conversation with the storage as a script (list_script); C91_too_large reads the script. The last sentence is refuted by a run. | P_SendList | partial |
| C92 | Requests survive any cutting into USB packets that leaves commands and headers whole | Usb.v composes the framing loop of Framing.v with the responder model, the object size fetched and resets included. UsbWhole.pieces: by C14 and the shape of the deliveries every stream arrives as its containers, each cut only at packet boundaries; UsbReset: neither command nor collected data handling resets the transport (invariant over all handlers). The rest follows from C21, RColl.collect_any and C83. UsbSame.v: transport and responder depend on the environment only through its answers (P_UsbBigDev.v: C92_big_object carried from an environment answering OK to the storage). P_UsbEdit.v: C87 over USB, the responder waiting for all packets of SendPartialObject64 whatever becomes of the writes. UsbBig.v: induction over the packets of a data phase whose container length comes from the announced size. | P_Usb, P_UsbBig, P_UsbBigDev, P_UsbEdit | partial |
| C93 | An upload that fails half-way affects nothing but itself | Usb.v/UsbFail.v: after the failing piece the responder is IDLE and the next packet of the data phase is unexpected: the transport is reset, its byte count is zero, and everything after that is read as fresh containers. Proved for failures with at most one packet left (RSend.send_fail + UsbFail.after_failure + C92); refuted otherwise by computation. | P_UsbFail | partial |
| C94 | Deleting by format, or everything, removes exactly what was asked | FSDelAll.v: invariant of the loop over the table (the tables stay well formed, the disk keeps matching, all objects met so far that match are gone, all others untouched), induction over the walk in any order; composed with Device.v for the request level. The answer is refuted by computing two orders of the same table. | P_DelAll, P_DelDevice | partial |
| C95 | A download whose disk fails is never passed off as complete | RReadFail.v: induction over the segments of the transfer with a storage whose reads may fail but do not lie; composed with the file system model (a successful read returns the bytes of the file) by the guarded-environment argument of DeviceRead.v. That the next request is thrown away after a failure in mid-transfer is proved too, against the last part of the statement. | P_ReadFail | partial |
| C96 | GetObjectPropValue answers with the object's own value | P_GetValue.v: the conversation of the request (ROps.v, C80) played on the file system model (DeviceOps.v), with one more kind of step for questions that are not file system operations. The answer of the storage factory to a property question is assumed to be the current value (`serves`): the cache is C57, the computation C70; a factory that does so is constructed for the example. | P_GetValue | partial |
| C97 | Every folder object keeps being watched | FSWatch.v-FSWatch5.v, FSFirm.v, P_Watch.v: a small logic for single items (which folders may be deaf, what is known of handles and kinds) in which every operation of FS.v is shown to leave no new deaf folder; walks over subtrees are related to what they visit. The kernel watches only what is on the disk (sys_add_watch), so a walk that asks for watches may find folders missing; FSFirm.v shows that what a copy has just made is there. Watch numbers are given out by an oracle that never repeats one. | P_Watch | partial |
| C98 | An object announced by a property list is stored and can be read back | DeviceSend2.v, P_DevList.v: the conversation of C91 played on the storage model (carries/play_ask of C85); the content as in C83, with the setting of the announced properties (never the file name) between content and closing write, which the storage model shows to change nothing (C71). | P_DevList | proved |
| C99 | A description's values obey the description's own restriction | P_PodDefault.v: permitted is a small specification of MTP forms; every entry of the tables of Pod.v (for an arbitrary device configuration) is compared with it. | P_PodDefault | partial |

No property was left out as not expressible.

## 5. What is modelled and what is not

Modelled function by function: mtpcontainer.cpp, mtprxcontainer.cpp, mtptxcontainer.cpp,
mtpresponder.cpp (every operation, receiveContainer, sendContainer, sendResponse,
segmented reads and writes, events, suspend/resume/cancel/reset, deferred commands),
objectpropertycache.cpp, propertypod.cpp (tables), storagefactory.cpp,
fsstorageplugin.cpp (enumeration, add/delete/move/copy/rename, read/write/truncate,
object info and property values, references, id files, inotify handling, free space),
storageplugin.cpp (copyData, timestamps), fsinotify.cpp (parser), fsstoragepluginfactory.cpp (labels, paths),
thumbnailer.cpp (queues and batches), threadio.cpp (all four threads),
mtptransporterusb.cpp (framing, events, sendData, reset, start/stop of reading),
mtpdeviceinfo.cpp, xmlhandler.cpp, deviceinfoprovider.cpp (battery).

Not modelled: logging; mts.cpp, service.cpp and the D-Bus glue; the dummy transport; the
USB descriptors (descriptor.c, mtp1descriptors.h); plugin loading by QPluginLoader/dlopen;
the contents of thumbnails and of the Tracker/thumbnailer services (oracles); Qt's own
XML, URL and UTF conversion beyond what is stated; MIME type detection (an oracle giving a
format for a path); file modification dates beyond the codec of C56; the vendor-extension
manager (its list is empty in this code base: every query falls through); memory exhaustion;
the relative speed of threads (no fairness is assumed; liveness is stated as
`can always continue'); the big-endian code paths, which are not compiled.

## 6. Findings

Defects the modelling exposed, in the code as pinned (those with a theorem name are proved
about the model; the others follow from reading the same lines).

*Wire and transport*
* Deserialising trusts every length in the container (C08_bounds_refuted); a sixth command
  parameter is written outside the parameter vector (C09_six_parameters_refuted).
* The transmit buffer's growth computation wraps beyond 2 GiB (C03_over_2GiB_refuted); a leading byte
  order mark is dropped from strings (C04_bom_refuted); 128-bit ids are
  ordered with signed char (C10_order_signed_char_refuted); the portable big-endian `putl`
  branches are wrong (not compiled).
* A container length of 0 makes processReceivedData loop for ever (C15_zero_length_refuted).
* A failed zero length packet counts as success (C17_refuted).
* A reset during an event write wedges all later sends (C20_refuted); a wake-up is lost if
  sendOne comes while the interrupt thread is still starting.
* Data in both parts of the receive buffer plus a second nested notification leaves a packet
  unprocessed until the next one (C67_refuted).
* Bus suspend resets the receive buffer while the reader thread is inside read(2): the
  first packet after resume is lost and the reader thread ends (C74_refuted).
* The control thread reads the data stage of a Cancel request as if it were a kernel event
  record: a host that announces 12 or more bytes forges USB state changes, and a type
  above 6 indexes `event_names` out of bounds (C72_forged_events_refuted). The device
  status is never initialised (C73_uninitialised_refuted).

*Responder*
* GetThumb failure: no response, and the next command is swallowed (C21_…_refuted);
  a read failing in mid-transfer: no response, and the next request is thrown away (C95_next_request_refuted). Responses carry the transaction id modulo 65536
  (C22_large_id_refuted). GetObjectPropsSupported works without a session
  (C23_props_supported_refuted), CloseSession ignores its transaction id (C24_close_session_refuted).
* GetObject truncates objects over 4 GiB - 13 bytes with OK (C29_large_object_refuted); a transport failure
  on the first data packet is ignored (C30_first_packet_refuted).
* SendObject with more bytes than announced is answered OK, with SendObjectInfo followed by
  SendObjectPropList it writes the older object with the newer size, and a cancel then deletes the other one
  (C31, C32, C33 refutations). SendObject and SendPartialObject64 ignore their data header (C38 refutations).
* Edit mode survives the session (C34 refuted); all events are lost while suspended (C35 refuted); after a
  response delivered on resume the next command is thrown away with a transport reset (C36 refuted); a data packet while
  suspended is parsed as a command; suspend + failing GetThumb + resume makes an advertised operation
  unsupported (C27 refuted).
* Null dereference when GetPartialObject or CopyObject is cancelled or reset.
* GetObjectPropList: depth 0xFFFFFFFF is served like 1, the format is ignored at depth 0 (C40 refutations).
* SetDevicePropValue on a read-only property is answered OK without effect (C66_read_only_refuted); Copyright (0x501F) is
  advertised without description (C63_copyright_refuted); the defaults of Sample_Rate, Video_FourCC_Codec, Rep_Sample_Format and, as
  shipped, the number of channels are not among their permitted values, and the battery level is sent exactly although its range has steps of ten (C99 refutations); SetObjectPropList uses the host's data type.
* PropertyPod is constructed before m_extensionManager.

* A write that fails during SendObject with more than one packet to come: the rest of the content is read as fresh containers,
  so file bytes can be executed as commands (C93_content_executed_refuted) or read past the packet (C93_zeros_refuted).

*Storage*
* 256 or more storages loop for ever (C60_256_storages_refuted); the handle counter wraps (C41_wraparound_refuted).
* The final rmdir of a deleted folder is unchecked, so OK though the folder remains (C45); deleting everything is never OK, and
  deleting by format answers OK or PartialDeletion depending on the order of a hash table (C94_answer_refuted);
  DeleteObject(0xFFFFFFFF, Association) with nested folders uses freed items.
* Format filter 0x3000 is treated inconsistently (C44).
* Between notifications: a folder replaced by a file leaves a stale watch and later crashes enumeration; a file replaced
  by a folder goes unnoticed; a cross-folder rename uses the old name; the last unpaired move-from waits
  for a later event; quick consecutive external moves are lost (C59 refuted).
* A folder with contents that is moved out of the storage: the contents are dropped and announced, but the final call of
  deleteItemHelper uses its default arguments, so the folder itself stays exported, or, if another program has made an
  empty folder of that name, that folder is deleted from the disk unannounced (C59_folder_moved_out_refuted,
  C81_folder_refuted). A file renamed over another one leaves the target's size stale (C81_overwritten_refuted).
* Renaming re-adds watches before the children's paths are adjusted, so subfolders become unwatched (C97_rename_refuted); rename of the
  root dereferences a null parent; a failed rename and a rename to the empty name are answered OK (C71).
* addItem validates neither names nor that the parent is a folder (C48); objects can be renamed or
  moved into excluded paths (C61_rename_refuted); createIfNotExist on an existing untracked folder truncates its files.
* CopyObject of a folder into itself never ends (C89_copy_into_itself_refuted); copying onto an existing name overwrites silently (C47_occupied_refuted), and a
  cancel then deletes the original; an empty file copied over another leaves its content; error paths leave the
  target unwatched; the closing call's OK replaces a failed last chunk (C53); sizes are 32 bit.
* MoveObject onto a tracked but vanished name gives two handles one path (C46_vanished_target_refuted).
* Persistent ids: UTF-16 length with UTF-8 bytes loses or exchanges ids of non-ASCII paths; signed char comparison
  restarts numbering; a storage that is not mounted loses its ids; a cut file mixes two ids; a crash loses all new ids; moved or deleted objects'
  ids are not updated, so two objects can share one (C54 refutations). References of and to folders and of playlists are lost
  on restart, and the file is shared by all storages (C55 refutations); a name length 0xFFFFFFFF overflows the heap.
* Cache: every value a plugin accepts is cached even when ignored; properties of the children of a
  deleted folder stay; size changes by SendObject and TruncateObject64 are not flushed (C57 refutations).
* Timestamps: 'Z' times are rejected, the offset correction has the wrong sign, time -1 cannot be represented (C56 refutations).
* Free space percentage wraps over 184 PB, and a capacity change re-announces the same percentage (C65 refutations).

*Configuration*
* "/h" and "/h/" are exported twice (C62_trailing_slash_refuted); labels containing %1 are mangled by QString::arg;
  five rounds of renumbering can be too few.
* Thumbnails of names with %XX, ? or # are requested again and again (C64_percent_refuted).
* Device info: after a configuration file that breaks off, the built-in events, codecs and channels are
  appended to those already read, and a format the file lists under another heading than the built-in one
  is advertised twice (C75_refuted); AMR (an audio format) is built in as an image format; Ogg is not built
  in at all, so with another configuration file .ogg files get a format that was never advertised
  (C79_refuted); a blank friendly name lasts until the next start only (C76_refuted); the battery level is
  described as a range with step 10 and reported with step 1 (C77_range_refuted).
* Notifications: a queue overflow record has no name and is dropped, the storage is not rescanned.
* Objects near 4 GiB: announced by SendObjectInfo with size 0xFFFFFFFF, the data container's length field is
  taken at its word and the object is emptied with IncompleteTransfer after 4 GiB - 13 bytes of content
  (C92_big_object_info_refuted); announced by SendObjectPropList it is stored (C92_big_object).
* AMR sound (.amr, format 0xB908) stands in the table of picture formats (mtpdeviceinfo.cpp:193): its
  supported properties are width, height and the thumbnail's, not artist and duration (C63_media_refuted).
* A file renamed by the host (SetObjectPropValue of the file name) keeps the format of its old name: x.Mp3
  renamed to x.txt is still reported as sound, until the storage is scanned again
  (fsstorageplugin.cpp:2833-2857, C79_renamed_refuted).
