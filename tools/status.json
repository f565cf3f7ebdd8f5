{
 "C01": [
  "proved",
  ""
 ],
 "C02": [
  "proved",
  ""
 ],
 "C03": [
  "proved",
  "Stated up to 2 GiB - 256 bytes; C03_over_2GiB_refuted shows the capacity computation wraps beyond that (four writes of a 3 GiB container)."
 ],
 "C04": [
  "partial",
  "Proved for every string that does not begin with U+FEFF/U+FFFE. C04_bom_refuted: QString::fromUtf16 drops a leading byte order mark, so such names do not round trip."
 ],
 "C05": [
  "proved",
  ""
 ],
 "C06": [
  "proved",
  "Strings: see C04 for the byte order mark exception, which has_type excludes."
 ],
 "C07": [
  "proved",
  ""
 ],
 "C08": [
  "partial",
  "The property is false of the code: C08_bounds_refuted (no bounds checks in deserialize, constructor memcpy of more bytes than the claimed length). What holds: C08_append_in_bounds_partial, C08_read_needs_received_bytes_partial."
 ],
 "C09": [
  "proved",
  "C09_six_parameters_refuted additionally shows that a sixth parameter writes outside the parameter vector."
 ],
 "C10": [
  "partial",
  "Increment and equality hold everywhere; the order is numeric only where plain char is unsigned (C10_order_unsigned_char_partial); on signed-char platforms it is not (C10_order_signed_char_refuted)."
 ],
 "C11": [
  "proved",
  ""
 ],
 "C12": [
  "proved",
  " Stopping while the reader is inside read(2) is C74."
 ],
 "C13": [
  "proved",
  "For every schedule, with re-entrant notifications too: an idle reader without room gets it back by actions of the main thread alone, and never waits while the main thread has nothing to do. (Fairness of the scheduler and the condition variable itself are outside the model.)"
 ],
 "C14": [
  "proved",
  ""
 ],
 "C15": [
  "partial",
  "The property is false of the code (C15_zero_length_refuted: a length field of 0 in a followed-up packet loops for ever). C15_terminates_partial proves termination whenever no length field is zero."
 ],
 "C16": [
  "proved",
  ""
 ],
 "C17": [
  "partial",
  "C17_refuted: a failed terminating zero length packet is still reported as success. C17_short_packet_partial covers all other runs."
 ],
 "C18": [
  "proved",
  ""
 ],
 "C19": [
  "proved",
  ""
 ],
 "C20": [
  "partial",
  "C20_refuted: a reset during an event write loses the completion and every later sendData waits for ever. C20_completes_partial covers all histories without reset, close and fatal endpoint error."
 ],
 "C67": [
  "partial",
  "False of the code as written: C67_refuted gives a schedule of re-entrant notifications that leaves a packet unprocessed. C67_not_stranded_partial excludes exactly those (calm schedules); C67_comes_out_with_the_next_packet_partial shows that in every reachable state the next packet brings the rest out, in order."
 ],
 "C58": [
  "proved",
  ""
 ],
 "C41": [
  "partial",
  "Handles handed out are distinct and never reused for fewer than 2^32-1 allocations per device (C41_allocation_partial, C41_fresh_partial). Beyond that the 32-bit counter wraps and hands out handles already in use: C41_wraparound_refuted."
 ],
 "C60": [
  "proved",
  "Routing by the storage-id byte; C60_256_storages_refuted shows the id assignment loop never ends with 256 or more storages."
 ],
 "C21": [
  "partial",
  "Proved for all commands without initiator data (except GetThumb; object readers need the storage's reads to succeed) and for all commands with a data phase cut in any way (given parsing does not run out of bounds, C08). False in general: C21_getthumb_refuted, C21_failed_read_refuted."
 ],
 "C22": [
  "partial",
  "Holds for transaction ids below 65536. C22_large_id_refuted: sendResponse passes the id through a quint16, so later responses carry the id modulo 65536."
 ],
 "C23": [
  "partial",
  "Proved for the 29 operations that check the session (data phases: given parsing does not run out of bounds). CloseSession is covered by C25_close; C23_props_supported_refuted: GetObjectPropsSupported answers without a session; GetThumb stays silent (C21)."
 ],
 "C24": [
  "partial",
  "As C23. C24_close_session_refuted: CloseSession accepts any transaction id."
 ],
 "C25": [
  "proved",
  "For all environments; 'in no other way' covers every received packet, storage becoming ready and every signal: only a device reset closes the session otherwise."
 ],
 "C26": [
  "proved",
  ""
 ],
 "C38": [
  "partial",
  "Proved for the six operations that parse their data into a container. C38_send_object_refuted, C38_send_partial_refuted: object contents are applied whatever header the data carries."
 ],
 "C28": [
  "proved",
  "Objects up to 2^63-1 bytes (the file system's limit); the storage is assumed to answer reads inside the object correctly (that it does: C52)."
 ],
 "C29": [
  "partial",
  "Proved up to 0xFFFFFFFF-12 bytes. C29_large_object_refuted: larger objects are truncated to 4 GiB - 13 bytes and the transfer is answered OK."
 ],
 "C30": [
  "partial",
  "Reads, later packets and cancel requests: proved for every environment. C30_first_packet_refuted: a transport failure on the first packet is ignored (sendContainer drops the result)."
 ],
 "C31": [
  "partial",
  "Proved for content not longer than announced (every packetisation, every write failure). Refuted beyond that: longer content is answered OK, and reaching the size before the last packet drops the rest."
 ],
 "C32": [
  "partial",
  "Proved: what SendObjectInfo/SendObjectPropList announce, that nothing else disturbs it, refusal without announcement. Refuted: after SendObjectInfo followed by SendObjectPropList the older object is written. C32_info_request: the storage is handed exactly the dataset sent, for any packets."
 ],
 "C33": [
  "partial",
  "Proved for every number of packets received, when one announcement is pending. Refuted with two: the object deleted is not the one written to."
 ],
 "C34": [
  "partial",
  "Proved for every history and environment: partial writes, truncation, flush and end of edit only for the object of the latest open BeginEditObject. Refuted: the edit survives CloseSession/OpenSession."
 ],
 "C35": [
  "partial",
  "Proved for every event, state and storage answer except the suspended state, where every event is lost (refuted)."
 ],
 "C36": [
  "partial",
  "Proved: a container produced while suspended is sent exactly once on resume, whatever events come in between. Refuted: the responder does not accept the next command afterwards."
 ],
 "C37": [
  "proved",
  "C37_deferred: running the stored command when the storage becomes ready equals executing command and data phase on arrival, for every command and every cut into packets. The one-response corollaries exclude GetThumb and failing reads, see C21."
 ],
 "C27": [
  "partial",
  "Proved for every history without suspend requests, provided the storage, device and property tables never themselves answer with OperationNotSupported: an advertised operation always has a handler and is never answered OperationNotSupported. With a suspend request the statement is false of the code (C27_suspend_refuted)."
 ],
 "C42": [
  "partial",
  "Proved for every history from enumeration on (op_ok lists the excluded situations, each a real defect described in DESIGN.md). Not included: that the parent is a folder (a stale parent handle may be a file), see C47's premise. C42_parent_not_a_folder_refuted: a parent can be a file."
 ],
 "C43": [
  "proved",
  "C43_sibling_lists: every sequence of links and unlinks of the item pool. C43_every_folder: the same for the child lists in every state of the storage (histories as in C42)."
 ],
 "C44": [
  "partial",
  "Exact for every reachable state except the filter format 0x3000 with a parent given: there the answer is always empty (C44_undefined_format_empty), while without a parent the filter selects objects of that format."
 ],
 "C45": [
  "partial",
  "A successful answer: all descendants gone and, for childless objects, the object too; nothing else touched. The folder itself may remain although OK is answered, because the result of its final rmdir is ignored. C45_working_disk: on a disk that works and matches what is shown the answer is OK and the whole tree is gone."
 ],
 "C46": [
  "partial",
  "Histories as in C42; move target must not be a tracked name that vanished from disk. C46_vanished_target_refuted: otherwise two handles get one path."
 ],
 "C47": [
  "partial",
  "For a vacant target and an object whose parents are folders; contents equal if no system call fails. C47_occupied_refuted: an existing file of that name is overwritten; a folder is refused where a name is known (C47_folder_name_taken). C47_outside: also a failed copy leaves everything outside the destination alone; C47_no_space: a copy that does not fit leaves everything known as it was."
 ],
 "C49": [
  "proved",
  "For every history: an illegal character, only dots, or a name already known in the folder is refused and the state is unchanged (C49_invalid_names for objects in a folder, C49_invalid_names_root for the storage root, which is in no folder)."
 ],
 "C50": [
  "partial",
  "Content is exact unless the closing ftruncate fails (its result is ignored). C50_not_cut_refuted."
 ],
 "C51": [
  "proved",
  "Histories as in C42."
 ],
 "C52": [
  "proved",
  "Holds in every state, reachable or not, without hypotheses on the storage."
 ],
 "C53": [
  "partial",
  "Sizes below 4 GiB; a failed write of the last chunk is answered OK."
 ],
 "C48": [
  "partial",
  "C48_confined_partial: for names without slashes that are not empty, . or .., in every reachable state and for every operation and notification, every object denotes a place in the folder and nothing outside changes on disk. The full property is false: addItem does not check names (C48_folder_name_refuted: a folder called ../x is created and exported outside)."
 ],
 "C59": [
  "partial",
  "C59_pairing_partial: for every sequence of operations and notifications whose cookies are as the kernel gives them, every move-from is handled exactly once (as a move if the next notification is its move-to, else as a deletion), and everything else exactly once. Missing: a last unpaired move-from stays remembered until some later notification (the flushing null event is never emitted), and a pair separated by another notification is a deletion and a creation. C59_last_one_refuted; C59_folder_moved_out_refuted: a non-empty folder moved out of the storage stays exported although it is gone."
 ],
 "C61": [
  "partial",
  "C61_exported_partial: in histories without renames and moves no object has an excluded path or is a refused link. C61_no_new_partial: no other operation adds one. False with renames: C61_rename_refuted."
 ],
 "C56": [
  "partial",
  "Round trip proved for every time, zone and mktime (POSIX contract) when the local time is unambiguous and the offset is a whole number of minutes; local times are read correctly. False in general: C56_offset_refuted (the sign of the offset correction is inverted: the result is wrong by twice the difference to the local offset), C56_zulu_refuted (times ending in Z are always rejected). In the repeated hour at the end of summer time the round trip depends on which of the two mktime picks."
 ],
 "C62": [
  "partial",
  "Labels and configured path strings are distinct for every configuration. Distinct folders hold if different configured strings name different folders (C62_distinct_folders_partial); false otherwise: C62_trailing_slash_refuted."
 ],
 "C64": [
  "partial",
  "At most once for names without %, ? and # (C64_once_partial); false for others: C64_percent_refuted. Batch bound and acceptance only of requested pictures are proved without restriction."
 ],
 "C68": [
  "proved",
  "Only-offered, earlier-kept, exported unless the final label is taken, unchanged labels without clash: all configurations."
 ],
 "C69": [
  "proved",
  ""
 ],
 "C39": [
  "proved",
  ""
 ],
 "C63": [
  "partial",
  "Proved for every object property and for the responder's tables. The shipped deviceinfo.xml advertises device property 0x501F (Copyright) without a description: C63_copyright_refuted. Formats: C63_media_partial says which formats have the properties of sound, pictures and films in the shipped configuration (C63_media_any for any), C63_media_refuted that AMR sound is described as a picture."
 ],
 "C65": [
  "partial",
  "Proved for a fixed non-zero capacity below 184 PB. A changed capacity re-announces an unchanged percentage (C65_capacity_refuted); bigger storages wrap (C65_huge_refuted)."
 ],
 "C66": [
  "partial",
  "Proved for the two writable properties and for unknown ones. Writes to read-only properties are answered OK without effect (C66_read_only_refuted)."
 ],
 "C54": [
  "partial",
  "Round trip of the id file, ids kept over restarts and fresh ids never repeated hold for ASCII paths, with the storage present and a proper shutdown (partial theorems); refuted otherwise: non-ASCII paths (length counts UTF-16 units, bytes are UTF-8), signed char comparison of the last id, a store cut short, a storage absent for one run, shared ids after moves."
 ],
 "C55": [
  "partial",
  "Liveness and order of the references returned, all-or-none, and the wire level hold for every history; surviving a restart is proved for non-playlist objects found again by persistent id, and refuted for folders (not in the id map), for playlists (not written) and for two storages (one file for all)."
 ],
 "C40": [
  "partial",
  "Elements, count and bytes proved for depth 0 and 1, every property list, every storage answer. C40_deep_refuted: depth 0xFFFFFFFF is served like depth 1. C40_format_refuted: the format parameter is ignored at depth 0. Properties the storage has no value for have no element."
 ],
 "C57": [
  "partial",
  "The cache: for any storage that keeps its side of the contract (honest: changes are announced or asked for, accepted values take effect), for all histories a cached value is current unless its change is announced and queued, or the object was written to and not flushed, or it is gone (C57_answers_partial, C57_settled_partial, C57_cache_partial). The file system storage: for all histories of requests, notifications and outside changes every property of an object that stays has its old value, the value a request asked for, or an announced change (C57_storage_tells, C57_storage_quiet). It breaks the rest of the contract: C57_ignored_refuted, C57_failed_rename_refuted, C57_truncate_refuted, C57_deleted_refuted. Missing: the composition of the two for the histories without those cases."
 ],
 "C70": [
  "proved",
  "For every state reachable by the operations of FSSpec; thumbnails are an oracle. Properties that are not in the object info (constants, thumbnails) are modelled but not part of the claim."
 ],
 "C71": [
  "partial",
  "The claim is false: everything but the file name is accepted and ignored (C71_ignored_refuted, C71_only_the_name_partial), and a failed rename is answered OK (C71_failed_rename_refuted). A successful rename is C49."
 ],
 "C72": [
  "partial",
  "Proved for requests whose data stage is shorter than one event record (12 bytes); longer Cancel data is read as forged events and can crash the thread: C72_forged_events_refuted."
 ],
 "C73": [
  "partial",
  "Proved from the first time a status is set; before that memory nobody initialised is sent: C73_uninitialised_refuted."
 ],
 "C74": [
  "partial",
  "False: C74_refuted (the first packet after a resume is lost and the reader ends). Proved: nothing wrong or overwritten is ever delivered, and nothing crashes, for every interleaving."
 ],
 "C75": [
  "partial",
  "Presence is proved for every file; once-only is proved for operations and false for events after a broken file and formats listed under another heading: C75_refuted."
 ],
 "C76": [
  "partial",
  "Proved for names that are not blank; a blank name is replaced by the built-in one on restart: C76_refuted. Assumes that the XML library reads back the text it wrote and that writing the file succeeds."
 ],
 "C77": [
  "partial",
  "Level and announcements are proved; the values need not be ones the advertised range permits: C77_range_refuted."
 ],
 "C78": [
  "proved",
  "The kernel's side of read(2) on an inotify descriptor is specified as inotify(7) describes it. Events the kernel drops on queue overflow are outside."
 ],
 "C79": [
  "partial",
  "C79_documented: every extension the format documentation of mtptypes.h names (a table written from there, not from the program's) gives the documented format. By extension: proved. Advertised: proved for the installed configuration, and for every configuration for all formats but Ogg; refuted for Ogg with another configuration: C79_refuted. Case folding outside ASCII is a parameter. C79_scanned: what the first scan finds is reported with that format and the file's length (storage id too), for every disk; C79_noticed: the same for what notifications of created or moved-in files and folders bring, after any history; C79_storage: the assumption of C97 that no extension means folder holds of the program's table. C79_renamed_refuted: a file renamed by the host keeps the format of its old name until the next scan."
 ],
 "C80": [
  "proved",
  "Under the same conditions as the other transaction theorems: no cancel, reset or suspend arrives meanwhile (C21-C27 cover those), and the property tables are consistent. Property extensions are not modelled."
 ],
 "C81": [
  "partial",
  "C81_announced_partial: everything except that a folder disappearing together with its contents need not be announced (C81_folder_refuted). C81_rewritten, C81_own_silent: full. C81_overwritten_refuted: renaming a file over another one leaves the target stale and unannounced. Notifications satisfy op_ok (names as the kernel gives them, kinds kept)."
 ],
 "C82": [
  "proved",
  "Proved over the composed model for objects whose recorded size is the file size (holds_file; C70/C81 say when) and whose contents fit the container length for GetObject; disk reads succeed (works C)."
 ],
 "C83": [
  "proved",
  "C83_announce (SendObjectInfo) and C83_send_object; sizes below 4 GiB; disk writes succeed (works C). Variant with SendObjectPropList: C34/C39 only."
 ],
 "C84": [
  "proved",
  "C84_round_trip; the name is not taken; sizes that fit a 32 bit container; disk operations succeed."
 ],
 "C85": [
  "partial",
  "As C44: the format filter 0x3000 together with a folder is excluded."
 ],
 "C86": [
  "partial",
  "Delete: a folder itself may remain although OK is answered (C45_folder_left_refuted); move: the target name is not a known object whose file vanished (C46_vanished_target_refuted); copy: what a copy that did not fit left behind is deleted again and nothing else is lost (C86_copy_full; with the same reservation about a folder that itself remains); contents of copies for vacant targets."
 ],
 "C87": [
  "proved",
  "The event switch and flush that BeginEditObject and EndEditObject ask for are left to the rest of the device."
 ],
 "C89": [
  "partial",
  "Copying a folder into itself or into something inside it is excluded; C89_copy_into_itself_refuted proves that copying a folder into itself never ends."
 ],
 "C88": [
  "proved",
  "That an accepted value of another writable property is not kept, and a failed rename is answered OK, is part of the statement here and counted as a defect under C71. The root folder (handle 0) is only covered for refusals."
 ],
 "C90": [
  "partial",
  "What holds is C90_thumbnail_partial and its companions. The claim as stated fails when the storage refuses (an unknown object, for one): C90_refused_refuted shows that then, for every object and every refusal, nothing is sent and the responder keeps waiting; see also C21 and C27."
 ],
 "C91": [
  "partial",
  "C91_refused_list_refuted: after a refused property list the stale announcement remains, and the content that follows is written to object 0. File name elements are assumed to carry string values (the conversion of numbers to strings is not modelled). If SendObjectInfo announced an object before, that one is still preferred (C32_latest_refuted), hence the hypothesis r_seq = None for the announcement."
 ],
 "C92": [
  "partial",
  "C92_cut_command_refuted: a command cut across two packets, its length field whole, is never answered and resets the transport twice. Containers with length field 0xFFFFFFFF: C92_big_object (announced by SendObjectPropList, up to the 4 GiB it admits; C92_big_device: on the storage the file then holds exactly the content), C92_big_object_info_refuted (by SendObjectInfo the device takes the field for the length and answers IncompleteTransfer). C92_send_object is for announcements by SendObjectInfo, C92_send_announced for both ways; C92_send_partial covers content written into an object being edited, for every answer. That a reset also empties the reader ring is not modelled."
 ],
 "C93": [
  "partial",
  "C93_last_packets_partial covers failures with at most one packet of content left. With two or more the claim is false: C93_content_executed_refuted (content bytes executed as a DeleteObject command), C93_zeros_refuted (content of zeros reads outside the packet). That a reset also empties the reader ring buffer is not modelled: the refutations apply to packets read after it."
 ],
 "C94": [
  "partial",
  "Effects proved for formats whose objects have no children and for everything (format 0). The answer is false: C94_answer_refuted (OK or PartialDeletion depends on the order of the hash table; deleting everything is never OK). Formats whose objects have children walk freed items: C42_delete_folders_refuted."
 ],
 "C95": [
  "partial",
  "All but the last part of the statement is proved (C95_never_passed_off). False: after a failure in mid-transfer no response is sent and the next packet is thrown away with a transport reset (C95_next_request_refuted)."
 ],
 "C96": [
  "partial",
  "Proved given that the storage factory answers with current values (serves), which is what C57 and C70 prove of the factory and the storage, with the exceptions listed there (C57 refutations)."
 ],
 "C97": [
  "partial",
  "Proved: after the start every folder object is watched, and any operation keeps every folder watched except in four cases that the theorem names: a copy that fails half-way, a file another program replaced by a folder of the same name, a folder in a renamed folder, and a folder found missing from the disk while it is moved (C97_enumeration_partial, C97_kept_partial, C97_history_partial). The first three are real losses (C97_failed_copy_refuted, C97_replaced_file_refuted, C97_rename_refuted). Assumed of the kernel: it accepts a watch exactly on what exists and never reuses a watch number."
 ],
 "C98": [
  "proved",
  "C98_announce, C98_refused, C98_content (objects announced either way, any size up to 2^64), C98_round_trip. The disk works and nobody cancels (at_work, works); the recursion bound of the storage model suffices (add_item .. = Ret); file name elements carry strings; each property description bears its own code. With an older SendObjectInfo pending see C32_latest_refuted; after a refused list see C91_refused_list_refuted."
 ],
 "C99": [
  "partial",
  "C99_default and C99_device are exact conditions for all configurations; the English claim itself is false of the code: C99_default_refuted (sample rate, video codec and thumbnail format default to 0, which their lists never contain, whatever the device), C99_battery_refuted (57 percent against steps of ten). C99_shipped gives the shipped configuration. String and array properties carry no restriction here."
 ]
}