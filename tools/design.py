#!/usr/bin/env python3
"""DESIGN.md = design_head.md + property table (properties.jsonl, MANIFEST.json, HOW) + design_tail.md"""
import json,os,re,glob
root=os.path.dirname(os.path.dirname(os.path.abspath(__file__)))
HOW={
'C01':'Writer and reader of integers of every width over byte lists; round trip by induction on the width, for every offset and every suffix.',
'C02':'Tx container as a byte buffer with header; invariant: length field = bytes written, for every sequence of writes, plus the explicit length setter.',
'C03':'Capacity growth with 32-bit arithmetic; contents compared with an unbounded buffer for every write sequence.',
'C04':'QString as 16-bit units; encode/decode; induction on the string; byte order mark and embedded NUL treated separately.',
'C05':'Arrays of every element width; induction on the array.',
'C06':'Property values of every MTP data type, typed by has_type; case analysis over types, induction for arrays.',
'C07':'All 19 fields of the object info dataset, composition of C01 and C04.',
'C08':'Reader with a distinct UB outcome; refuted by a container whose counts exceed it; partial: what was appended stays inside.',
'C09':'Parameter vector of a received command against the bytes sent, for any number up to five.',
'C10':'16-byte little endian number; increment proved numeric by induction with carry; comparison analysed for both char signs.',
'C11':'Two-thread transition system; invariant relating buffer contents to the stream; delivered ++ pending = received for every schedule.',
'C12':'Same system; the region of the read in flight is disjoint from both data regions in every reachable state.',
'C13':'Same system; from every reachable state a run of main-thread actions gives the idle reader room.',
'C14':'processReceivedData as a loop over arbitrary chunks; induction on chunks: containers cut out equal those of the whole stream; reset starts afresh.',
'C15':'Same loop with fuel; divergence witness for zero; termination measure otherwise.',
'C16':'BulkWriterThread with an oracle for write(2); induction on the oracle run: concatenation of accepted bytes is a prefix, equal on success.',
'C17':'Same; last write short or empty exactly at multiples of 512.',
'C18':'Interrupt writer thread and event queue as a transition system; invariant on queue bound, order, once-only; draining run.',
'C19':'Same system; invariants on when a transmission may start, failure counter, session change.',
'C20':'Same system; progress of the waiting loop in sendData; refuted with a reset.',
'C21':'Responder monad with program logic (RLogic/ROne); per operation exactly one response in the log.',
'C22':'Same logs: the id in the response container.',
'C23':'Gate lemma for the operations calling preCheck; no storage call, no change.',
'C24':'Same gate with a wrong id.',
'C25':'Invariant on the session field over every input of the responder.',
'C26':'Dispatch table: codes without a handler.',
'C27':'Advertised list (from the tables) against dispatch, invariant over histories.',
'C28':'Segmented sender: induction on the remaining length; bytes = requested range, for every storage answering reads correctly.',
'C29':'Same for whole objects.',
'C30':'Same with failing reads, packets and cancels: no OK response.',
'C31':'Receiver of object data: induction on packets; writes performed = bytes received.',
'C32':'State machine of announcements; invariant that nothing else disturbs it.',
'C33':'Cancel in every state of the data phase; storage calls made.',
'C34':'Invariant over histories on the open edit.',
'C35':'Event filter per signal for every state.',
'C36':'Container kept on suspend; sent on resume after any events.',
'C37':'Deferred input replayed; equality of final state and log with direct execution.',
'C38':'Check of the data header before parsing, for the operations doing it; refuted for the others.',
'C39':'Element loop; induction on the list; index reported; elements applied before it.',
'C40':'Query loop; list of elements against a specification; count and bytes.',
'C41':'Factory counter over any number of allocations; NoDup invariant below wrap.',
'C42':'FSStoragePlugin as a state monad with failing system calls; invariant `consistent` over reachable states; induction over histories.',
'C43':'Same invariant: child lists as linked siblings, no cycles, each object once.',
'C44':'Enumeration against the set of objects satisfying the filter, in every reachable state.',
'C45':'Recursive deletion: induction on depth; what disappears, what stays.',
'C46':'Move: handles, ids, contents of the moved tree before and after.',
'C47':'Recursive copy: fresh handles, source untouched, contents equal. Names that are taken and a full disk: P_FS6.',
'C48':'Path components; invariant that every path lies below the root; disk outside unchanged.',
'C49':'Rename check over every name; state equality.',
'C50':'Write sequence; file content by induction over chunks.',
'C51':'Partial write: content patched in the range only.',
'C52':'Read in every state: exact bytes or refusal.',
'C53':'copyData loop; induction on remaining bytes.',
'C54':'Byte format of the id file; store/load round trip; restart as a function of the file; histories of restarts.',
'C55':'Reference tables; invariant under deletion; file round trip; wire level.',
'C56':'Civil date arithmetic over Z; formatting and parsing; mktime as an oracle with its POSIX contract.',
'C57':'Responder cache over an abstract honest storage; invariant: cached value current or its change queued. The file system storage: a relation on states (FSVals: same item, allowed change of its info, events only added, new items have new handles) kept by every operation, with the notification handlers treated apart (FSVals2); handle freshness identifies the object before and after.',
'C58':'Cache as a map: specification by get after each operation.',
'C59':'Sequence of notifications with cookies; pairing automaton compared with a specification.',
'C60':'Routing by storage id byte for every id and every history of storages.',
'C61':'Invariant that no tracked path is excluded, for histories without renames.',
'C62':'Label numbering and path filter over every configuration.',
'C63':'Tables of the property pod and of the device info, finite enumeration, for every code. P_Formats.v: the categories of formats against the documented kind of each (sound, picture, film).',
'C64':'Thumbnailer queues over every history; URL percent decoding modelled for the key.',
'C65':'Announcement automaton over every sequence of free-space readings.',
'C66':'Responder operation; effect on the device info calls.',
'C67':'As C11, with re-entrant notifications; refuted, and proved for calm schedules.',
'C68':'Same model as C62: exported list against configuration.',
'C69':'Same model as C64: a run that fetches each request.',
'C70':'Property answers computed from the object info for every property and reachable state.',
'C71':'Set-property path of the plugin; refuted; what does take effect.',
'C72':'Control endpoint: the kernel\'s event/setup state machine and the control thread\'s loop; for every sequence of host requests: forwarded once, in order, answered by status, stall or acknowledgement; refuted for long Cancel data.',
'C73':'Same model: status answered = last status set; refuted before the first set.',
'C74':'Receive ring extended with stopRead while the reader is in read(2); refuted; partial: nothing wrong is ever delivered, and stop/start with the thread ended loses nothing.',
'C75':'Constructor of the device info over every sequence of parser callbacks: built-in operations and formats present exactly once; refuted for events after a broken file.',
'C76':'DOM update and re-parse of the two host-writable properties; restart as re-parse; refuted for blank values.',
'C77':'Battery change automaton.',
'C79':'P_Formats.v: a second table from the documentation of the formats; FSNamed.v: an invariant of the scan (every info filled in is the file\'s). Extension table and last-dot rule for every path, composed with the advertised formats of the C75 model; refuted for Ogg.',
'C80':'Each operation is specified as a script (questions, continuation on the answers, result); the handlers are proved to follow the scripts for every environment, by composition lemmas per monadic step.',
'C81':'A relation logic over the storage monad: each step leaves the events alone, adds announced fresh handles or removes announced ones (grew/shrank, composable); handle supply freshness makes the added ones unknown before; refutations by kernel computation.',
'C82':'Composition: the responder environment is the storage model replayed along the call log (Device.v); a guarded environment serves the file, the run is transported to the device because it asks only reads of the object (RExt.run_same), and C28/C29 give the packets; reads leave every view and file unchanged.',
'C83':'Composition: the write calls made by C31 are replayed on the storage (DeviceSend.replay) and C51/C52 give the file; the dataset passes the wire codec, the responder and storage factory unchanged (P_SendInfo, any packets).',
'C84':'Sequencing of C83_announce, C83_send_object and C82_get_object over one device: state_after and runs compose (DeviceInfo.after_more, run_more).',
'C85':'Composition: the request follows its protocol script (C80); the script is played on the storage state (DeviceOps.play_ask/play_end: the recorded answers are the storage answers), then C44/C70 describe the listing.',
'C86':'Composition as in C85, with C45, C46, C47 and C47_outside (a copy, also a failing one, affects only its destination), and C47_handle (the handle of a failed copy names nothing but the destination), so that the clean-up after StoreFull deletes only the copy (C86_copy_full).',
'C87':'REdit2: each request follows its script of storage calls, packet by packet (induction over the packets, refusal of the rest after a failed write); DeviceEdit.play_parts plays the writes on the storage (induction; consecutive writes join, wrote_app); P_Edit composes, also for a whole begin-write-end sequence.',
'C89':'The model counts nested calls (fuel) and aborts when it runs out. FSFuel: more fuel never changes a result; FSTerm..FSTerm5: every operation needs only finitely much (recursion over the finite object tree, the finite disk, the finite tree being copied outside the target); P_Term composes; P_Enough turns it into the form the other claims use: what add, delete, move, rename and copy need ends with a result. This also removes the fuel caveat from the other storage claims.',
'C88':'RSetProp.set_value_ok: the request follows its script of storage calls; P_SetProp plays the script on the storage with the rename theorems (C46, C49) and rename_terminates (C89) for the fuel; the tables are those of C63.',
'C90':'RThumb.thumb_ok steps through getThumbReq with the responder model; that the description asked with is that of the sample data is read off the property tables of Pod.v.',
'C91':'RSendList.prop_list_ok: reading the list (reads_int, reads_variant), the scan as a verdict on the list (specification judged), the conversation with the storage as a script (list_script); C91_too_large reads the script. The last sentence is refuted by a run.',
'C92':'Usb.v composes the framing loop of Framing.v with the responder model, the object size fetched and resets included. UsbWhole.pieces: by C14 and the shape of the deliveries every stream arrives as its containers, each cut only at packet boundaries; UsbReset: neither command nor collected data handling resets the transport (invariant over all handlers). The rest follows from C21, RColl.collect_any and C83. UsbSame.v: transport and responder depend on the environment only through its answers (P_UsbBigDev.v: C92_big_object carried from an environment answering OK to the storage). P_UsbEdit.v: C87 over USB, the responder waiting for all packets of SendPartialObject64 whatever becomes of the writes. UsbBig.v: induction over the packets of a data phase whose container length comes from the announced size.',
'C93':'Usb.v/UsbFail.v: after the failing piece the responder is IDLE and the next packet of the data phase is unexpected: the transport is reset, its byte count is zero, and everything after that is read as fresh containers. Proved for failures with at most one packet left (RSend.send_fail + UsbFail.after_failure + C92); refuted otherwise by computation.',
'C94':'FSDelAll.v: invariant of the loop over the table (the tables stay well formed, the disk keeps matching, all objects met so far that match are gone, all others untouched), induction over the walk in any order; composed with Device.v for the request level. The answer is refuted by computing two orders of the same table.',
'C95':'RReadFail.v: induction over the segments of the transfer with a storage whose reads may fail but do not lie; composed with the file system model (a successful read returns the bytes of the file) by the guarded-environment argument of DeviceRead.v. That the next request is thrown away after a failure in mid-transfer is proved too, against the last part of the statement.',
'C96':'P_GetValue.v: the conversation of the request (ROps.v, C80) played on the file system model (DeviceOps.v), with one more kind of step for questions that are not file system operations. The answer of the storage factory to a property question is assumed to be the current value (`serves`): the cache is C57, the computation C70; a factory that does so is constructed for the example.',
'C97':'FSWatch.v-FSWatch5.v, FSFirm.v, P_Watch.v: a small logic for single items (which folders may be deaf, what is known of handles and kinds) in which every operation of FS.v is shown to leave no new deaf folder; walks over subtrees are related to what they visit. The kernel watches only what is on the disk (sys_add_watch), so a walk that asks for watches may find folders missing; FSFirm.v shows that what a copy has just made is there. Watch numbers are given out by an oracle that never repeats one.',
'C98':'DeviceSend2.v, P_DevList.v: the conversation of C91 played on the storage model (carries/play_ask of C85); the content as in C83, with the setting of the announced properties (never the file name) between content and closing write, which the storage model shows to change nothing (C71).',
'C99':'P_PodDefault.v: permitted is a small specification of MTP forms; every entry of the tables of Pod.v (for an arbitrary device configuration) is compared with it.',
'C78':'Byte parser of inotify records: every list of records comes out once, in order.',
}
props=[json.loads(l) for l in open(root+'/properties.jsonl')]
man={c['property']:c for c in json.load(open(root+'/MANIFEST.json'))['claims']}
files={}
for f in sorted(glob.glob(root+'/rocq/theories/P_*.v')):
    for n in re.findall(r'^Theorem (C\d\d)',open(f).read(),re.M): files.setdefault(n,set()).add(os.path.basename(f)[:-2])
o=open(root+'/tools/design_head.md').read()
o+='## 4. Property by property\n\nStatus as in MANIFEST.json, where the notes say what a partial claim leaves out.\n\n| id | property | model and proof | theorems in | status |\n|---|---|---|---|---|\n'
for p in props:
    i=p['id']; c=man.get(i,{})
    o+='| %s | %s | %s | %s | %s |\n'%(i,p['title'],HOW.get(i,''),', '.join(sorted(files.get(i,[]))),c.get('status','planned'))
o+='\nNo property was left out as not expressible.\n'
o+=open(root+'/tools/design_tail.md').read()
open(root+'/DESIGN.md','w').write(o); print(len(o),[p['id'] for p in props if p['id'] not in HOW])
