{
 "claims": [
  {
   "property": "C01",
   "status": "proved",
   "theorems": [
    "C01_integers_survive"
   ],
   "note": ""
  },
  {
   "property": "C02",
   "status": "proved",
   "theorems": [
    "C02_header_and_content",
    "C02_explicit_length"
   ],
   "note": ""
  },
  {
   "property": "C03",
   "status": "proved",
   "theorems": [
    "C03_growth_loses_nothing",
    "C03_over_2GiB_refuted"
   ],
   "note": "Stated up to 2 GiB - 256 bytes; C03_over_2GiB_refuted shows the capacity computation wraps beyond that (four writes of a 3 GiB container)."
  },
  {
   "property": "C04",
   "status": "partial",
   "theorems": [
    "C04_strings_survive_partial",
    "C04_up_to_nul",
    "C04_bom_refuted"
   ],
   "note": "Proved for every string that does not begin with U+FEFF/U+FFFE. C04_bom_refuted: QString::fromUtf16 drops a leading byte order mark, so such names do not round trip."
  },
  {
   "property": "C05",
   "status": "proved",
   "theorems": [
    "C05_arrays_survive",
    "C05_arrays128_survive"
   ],
   "note": ""
  },
  {
   "property": "C06",
   "status": "proved",
   "theorems": [
    "C06_values_survive",
    "C06_unsupported_type_writes_nothing"
   ],
   "note": "Strings: see C04 for the byte order mark exception, which has_type excludes."
  },
  {
   "property": "C07",
   "status": "proved",
   "theorems": [
    "C07_objectinfo_survives"
   ],
   "note": ""
  },
  {
   "property": "C08",
   "status": "partial",
   "theorems": [
    "C08_bounds_refuted",
    "C08_append_in_bounds_partial",
    "C08_read_needs_received_bytes_partial"
   ],
   "note": "The property is false of the code: C08_bounds_refuted (no bounds checks in deserialize, constructor memcpy of more bytes than the claimed length). What holds: C08_append_in_bounds_partial, C08_read_needs_received_bytes_partial."
  },
  {
   "property": "C09",
   "status": "proved",
   "theorems": [
    "C09_parameters",
    "C09_six_parameters_refuted"
   ],
   "note": "C09_six_parameters_refuted additionally shows that a sixth parameter writes outside the parameter vector."
  },
  {
   "property": "C10",
   "status": "partial",
   "theorems": [
    "C10_increment",
    "C10_equality",
    "C10_order_unsigned_char_partial",
    "C10_order_signed_char_refuted"
   ],
   "note": "Increment and equality hold everywhere; the order is numeric only where plain char is unsigned (C10_order_unsigned_char_partial); on signed-char platforms it is not (C10_order_signed_char_refuted)."
  },
  {
   "property": "C11",
   "status": "proved",
   "theorems": [
    "C11_fifo"
   ],
   "note": ""
  },
  {
   "property": "C12",
   "status": "proved",
   "theorems": [
    "C12_no_overwrite",
    "C12_offset_always_consistent"
   ],
   "note": " Stopping while the reader is inside read(2) is C74."
  },
  {
   "property": "C13",
   "status": "proved",
   "theorems": [
    "C13_room_when_all_released",
    "C13_reader_can_always_continue",
    "C13_never_both_waiting"
   ],
   "note": "For every schedule, with re-entrant notifications too: an idle reader without room gets it back by actions of the main thread alone, and never waits while the main thread has nothing to do. (Fairness of the scheduler and the condition variable itself are outside the model.)"
  },
  {
   "property": "C14",
   "status": "proved",
   "theorems": [
    "C14_packet_boundaries_do_not_matter",
    "C14_reset_starts_afresh"
   ],
   "note": ""
  },
  {
   "property": "C15",
   "status": "partial",
   "theorems": [
    "C15_zero_length_refuted",
    "C15_terminates_partial"
   ],
   "note": "The property is false of the code (C15_zero_length_refuted: a length field of 0 in a followed-up packet loops for ever). C15_terminates_partial proves termination whenever no length field is zero."
  },
  {
   "property": "C16",
   "status": "proved",
   "theorems": [
    "C16_bytes_in_order_or_failure",
    "C16_finishes_on_a_working_endpoint"
   ],
   "note": ""
  },
  {
   "property": "C17",
   "status": "partial",
   "theorems": [
    "C17_short_packet_partial",
    "C17_refuted"
   ],
   "note": "C17_refuted: a failed terminating zero length packet is still reported as success. C17_short_packet_partial covers all other runs."
  },
  {
   "property": "C18",
   "status": "proved",
   "theorems": [
    "C18_bounded_in_order_no_repeat",
    "C18_drops_the_oldest",
    "C18_transmits_head_and_removes_it",
    "C18_no_event_forgotten",
    "C18_queue_drains"
   ],
   "note": ""
  },
  {
   "property": "C19",
   "status": "proved",
   "theorems": [
    "C19_started_only_when_allowed",
    "C19_one_write_and_never_during_bulk",
    "C19_failure_count_cleared_only_by_success_or_session",
    "C19_success_clears_failures",
    "C19_new_session_enables_events"
   ],
   "note": ""
  },
  {
   "property": "C20",
   "status": "partial",
   "theorems": [
    "C20_refuted",
    "C20_completes_partial"
   ],
   "note": "C20_refuted: a reset during an event write loses the completion and every later sendData waits for ever. C20_completes_partial covers all histories without reset, close and fatal endpoint error."
  },
  {
   "property": "C21",
   "status": "partial",
   "theorems": [
    "C21_one_response_partial",
    "C21_one_response_data_partial",
    "C21_getthumb_refuted",
    "C21_failed_read_refuted"
   ],
   "note": "Proved for all commands without initiator data (except GetThumb; object readers need the storage's reads to succeed) and for all commands with a data phase cut in any way (given parsing does not run out of bounds, C08). False in general: C21_getthumb_refuted, C21_failed_read_refuted."
  },
  {
   "property": "C22",
   "status": "partial",
   "theorems": [
    "C22_transaction_id_partial",
    "C22_transaction_id_data_partial",
    "C22_large_id_refuted"
   ],
   "note": "Holds for transaction ids below 65536. C22_large_id_refuted: sendResponse passes the id through a quint16, so later responses carry the id modulo 65536."
  },
  {
   "property": "C23",
   "status": "partial",
   "theorems": [
    "C23_no_session_partial",
    "C23_no_session_data_partial",
    "C23_props_supported_refuted"
   ],
   "note": "Proved for the 29 operations that check the session (data phases: given parsing does not run out of bounds). CloseSession is covered by C25_close; C23_props_supported_refuted: GetObjectPropsSupported answers without a session; GetThumb stays silent (C21)."
  },
  {
   "property": "C24",
   "status": "partial",
   "theorems": [
    "C24_invalid_tid_partial",
    "C24_invalid_tid_data_partial",
    "C24_close_session_refuted"
   ],
   "note": "As C23. C24_close_session_refuted: CloseSession accepts any transaction id."
  },
  {
   "property": "C25",
   "status": "proved",
   "theorems": [
    "C25_open",
    "C25_close",
    "C25_otherwise_kept",
    "C25_signals"
   ],
   "note": "For all environments; 'in no other way' covers every received packet, storage becoming ready and every signal: only a device reset closes the session otherwise."
  },
  {
   "property": "C26",
   "status": "proved",
   "theorems": [
    "C26_unknown_operation"
   ],
   "note": ""
  },
  {
   "property": "C27",
   "status": "partial",
   "theorems": [
    "C27_has_handler",
    "C27_advertises_all",
    "C27_never_unsupported_partial",
    "C27_suspend_refuted"
   ],
   "note": "Proved for every history without suspend requests, provided the storage, device and property tables never themselves answer with OperationNotSupported: an advertised operation always has a handler and is never answered OperationNotSupported. With a suspend request the statement is false of the code (C27_suspend_refuted)."
  },
  {
   "property": "C28",
   "status": "proved",
   "theorems": [
    "C28_partial_object",
    "C28_partial_object64"
   ],
   "note": "Objects up to 2^63-1 bytes (the file system's limit); the storage is assumed to answer reads inside the object correctly (that it does: C52)."
  },
  {
   "property": "C29",
   "status": "partial",
   "theorems": [
    "C29_whole_object_partial",
    "C29_large_object_refuted"
   ],
   "note": "Proved up to 0xFFFFFFFF-12 bytes. C29_large_object_refuted: larger objects are truncated to 4 GiB - 13 bytes and the transfer is answered OK."
  },
  {
   "property": "C30",
   "status": "partial",
   "theorems": [
    "C30_honest_partial",
    "C30_first_packet_refuted"
   ],
   "note": "Reads, later packets and cancel requests: proved for every environment. C30_first_packet_refuted: a transport failure on the first packet is ignored (sendContainer drops the result)."
  },
  {
   "property": "C31",
   "status": "partial",
   "theorems": [
    "C31_stored_partial",
    "C31_write_failure_partial",
    "C31_longer_refuted",
    "C31_early_ok_refuted"
   ],
   "note": "Proved for content not longer than announced (every packetisation, every write failure). Refuted beyond that: longer content is answered OK, and reaching the size before the last packet drops the rest."
  },
  {
   "property": "C32",
   "status": "partial",
   "theorems": [
    "C32_info_partial",
    "C32_props_partial",
    "C32_kept_partial",
    "C32_refused_partial",
    "C32_latest_refuted",
    "C32_info_request"
   ],
   "note": "Proved: what SendObjectInfo/SendObjectPropList announce, that nothing else disturbs it, refusal without announcement. Refuted: after SendObjectInfo followed by SendObjectPropList the older object is written. C32_info_request: the storage is handed exactly the dataset sent, for any packets."
  },
  {
   "property": "C33",
   "status": "partial",
   "theorems": [
    "C33_cancel_partial",
    "C33_wrong_object_refuted"
   ],
   "note": "Proved for every number of packets received, when one announcement is pending. Refuted with two: the object deleted is not the one written to."
  },
  {
   "property": "C34",
   "status": "partial",
   "theorems": [
    "C34_only_while_editing_partial",
    "C34_edit_survives_session_refuted"
   ],
   "note": "Proved for every history and environment: partial writes, truncation, flush and end of edit only for the object of the latest open BeginEditObject. Refuted: the edit survives CloseSession/OpenSession."
  },
  {
   "property": "C35",
   "status": "partial",
   "theorems": [
    "C35_sent_partial",
    "C35_dropped",
    "C35_content",
    "C35_suspended_refuted"
   ],
   "note": "Proved for every event, state and storage answer except the suspended state, where every event is lost (refuted)."
  },
  {
   "property": "C36",
   "status": "partial",
   "theorems": [
    "C36_sent_once_partial",
    "C36_next_command_refuted"
   ],
   "note": "Proved: a container produced while suspended is sent exactly once on resume, whatever events come in between. Refuted: the responder does not accept the next command afterwards."
  },
  {
   "property": "C37",
   "status": "proved",
   "theorems": [
    "C37_deferred",
    "C37_answered_once",
    "C37_at_once",
    "C37_at_once_data"
   ],
   "note": "C37_deferred: running the stored command when the storage becomes ready equals executing command and data phase on arrival, for every command and every cut into packets. The one-response corollaries exclude GetThumb and failing reads, see C21."
  },
  {
   "property": "C38",
   "status": "partial",
   "theorems": [
    "C38_mismatch_partial",
    "C38_send_object_refuted",
    "C38_send_partial_refuted"
   ],
   "note": "Proved for the six operations that parse their data into a container. C38_send_object_refuted, C38_send_partial_refuted: object contents are applied whatever header the data carries."
  },
  {
   "property": "C39",
   "status": "proved",
   "theorems": [
    "C39_in_order",
    "C39_reasons"
   ],
   "note": ""
  },
  {
   "property": "C40",
   "status": "partial",
   "theorems": [
    "C40_listed_partial",
    "C40_deep_refuted",
    "C40_format_refuted"
   ],
   "note": "Elements, count and bytes proved for depth 0 and 1, every property list, every storage answer. C40_deep_refuted: depth 0xFFFFFFFF is served like depth 1. C40_format_refuted: the format parameter is ignored at depth 0. Properties the storage has no value for have no element."
  },
  {
   "property": "C41",
   "status": "partial",
   "theorems": [
    "C41_allocation_partial",
    "C41_fresh_partial",
    "C41_never_the_wildcard",
    "C41_wraparound_refuted"
   ],
   "note": "Handles handed out are distinct and never reused for fewer than 2^32-1 allocations per device (C41_allocation_partial, C41_fresh_partial). Beyond that the 32-bit counter wraps and hands out handles already in use: C41_wraparound_refuted."
  },
  {
   "property": "C42",
   "status": "partial",
   "theorems": [
    "C42_tables_agree_partial",
    "C42_no_undefined_behaviour_partial",
    "C42_rename_root_refuted",
    "C42_delete_folders_refuted",
    "C42_parent_not_a_folder_refuted"
   ],
   "note": "Proved for every history from enumeration on (op_ok lists the excluded situations, each a real defect described in DESIGN.md). Not included: that the parent is a folder (a stale parent handle may be a file), see C47's premise. C42_parent_not_a_folder_refuted: a parent can be a file."
  },
  {
   "property": "C43",
   "status": "proved",
   "theorems": [
    "C43_every_folder",
    "C43_sibling_lists"
   ],
   "note": "C43_sibling_lists: every sequence of links and unlinks of the item pool. C43_every_folder: the same for the child lists in every state of the storage (histories as in C42)."
  },
  {
   "property": "C44",
   "status": "partial",
   "theorems": [
    "C44_enumeration_partial",
    "C44_undefined_format_refuted",
    "C44_undefined_format_empty"
   ],
   "note": "Exact for every reachable state except the filter format 0x3000 with a parent given: there the answer is always empty (C44_undefined_format_empty), while without a parent the filter selects objects of that format."
  },
  {
   "property": "C45",
   "status": "partial",
   "theorems": [
    "C45_working_disk",
    "C45_deletion_partial",
    "C45_folder_left_refuted"
   ],
   "note": "A successful answer: all descendants gone and, for childless objects, the object too; nothing else touched. The folder itself may remain although OK is answered, because the result of its final rmdir is ignored. C45_working_disk: on a disk that works and matches what is shown the answer is OK and the whole tree is gone."
  },
  {
   "property": "C46",
   "status": "partial",
   "theorems": [
    "C46_move_partial",
    "C46_rename_partial",
    "C46_rename_failure_refuted",
    "C46_vanished_target_refuted"
   ],
   "note": "Histories as in C42; move target must not be a tracked name that vanished from disk. C46_vanished_target_refuted: otherwise two handles get one path."
  },
  {
   "property": "C47",
   "status": "partial",
   "theorems": [
    "C47_copy_partial",
    "C47_outside",
    "C47_handle",
    "C47_occupied_refuted",
    "C47_folder_name_taken",
    "C47_no_space"
   ],
   "note": "For a vacant target and an object whose parents are folders; contents equal if no system call fails. C47_occupied_refuted: an existing file of that name is overwritten; a folder is refused where a name is known (C47_folder_name_taken). C47_outside: also a failed copy leaves everything outside the destination alone; C47_no_space: a copy that does not fit leaves everything known as it was."
  },
  {
   "property": "C48",
   "status": "partial",
   "theorems": [
    "C48_confined_partial",
    "C48_folder_name_refuted"
   ],
   "note": "C48_confined_partial: for names without slashes that are not empty, . or .., in every reachable state and for every operation and notification, every object denotes a place in the folder and nothing outside changes on disk. The full property is false: addItem does not check names (C48_folder_name_refuted: a folder called ../x is created and exported outside)."
  },
  {
   "property": "C49",
   "status": "proved",
   "theorems": [
    "C49_invalid_names",
    "C49_invalid_names_root"
   ],
   "note": "For every history: an illegal character, only dots, or a name already known in the folder is refused and the state is unchanged (C49_invalid_names for objects in a folder, C49_invalid_names_root for the storage root, which is in no folder)."
  },
  {
   "property": "C50",
   "status": "partial",
   "theorems": [
    "C50_written_data_partial",
    "C50_not_cut_refuted"
   ],
   "note": "Content is exact unless the closing ftruncate fails (its result is ignored). C50_not_cut_refuted."
  },
  {
   "property": "C51",
   "status": "proved",
   "theorems": [
    "C51_partial_write",
    "C51_truncate"
   ],
   "note": "Histories as in C42."
  },
  {
   "property": "C52",
   "status": "proved",
   "theorems": [
    "C52_reads_exact"
   ],
   "note": "Holds in every state, reachable or not, without hypotheses on the storage."
  },
  {
   "property": "C53",
   "status": "partial",
   "theorems": [
    "C53_copied_bytes_partial",
    "C53_lost_copy_refuted"
   ],
   "note": "Sizes below 4 GiB; a failed write of the last chunk is answered OK."
  },
  {
   "property": "C54",
   "status": "partial",
   "theorems": [
    "C54_shared_id_refuted",
    "C54_reload_partial",
    "C54_kept_partial",
    "C54_fresh_partial",
    "C54_starts",
    "C54_enumerated",
    "C54_nonascii_refuted",
    "C54_wrong_id_refuted",
    "C54_signed_char_refuted",
    "C54_cut_short_refuted",
    "C54_absent_storage_refuted"
   ],
   "note": "Round trip of the id file, ids kept over restarts and fresh ids never repeated hold for ASCII paths, with the storage present and a proper shutdown (partial theorems); refuted otherwise: non-ASCII paths (length counts UTF-16 units, bytes are UTF-8), signed char comparison of the last id, a store cut short, a storage absent for one run, shared ids after moves."
  },
  {
   "property": "C55",
   "status": "partial",
   "theorems": [
    "C55_history",
    "C55_all_or_none",
    "C55_restart_partial",
    "C55_playlist_refuted",
    "C55_folder_refuted",
    "C55_two_storages_refuted",
    "C55_set_request",
    "C55_get_request"
   ],
   "note": "Liveness and order of the references returned, all-or-none, and the wire level hold for every history; surviving a restart is proved for non-playlist objects found again by persistent id, and refuted for folders (not in the id map), for playlists (not written) and for two storages (one file for all)."
  },
  {
   "property": "C56",
   "status": "partial",
   "theorems": [
    "C56_roundtrip_partial",
    "C56_local_time",
    "C56_offset_partial",
    "C56_offset_refuted",
    "C56_zulu_refuted"
   ],
   "note": "Round trip proved for every time, zone and mktime (POSIX contract) when the local time is unambiguous and the offset is a whole number of minutes; local times are read correctly. False in general: C56_offset_refuted (the sign of the offset correction is inverted: the result is wrong by twice the difference to the local offset), C56_zulu_refuted (times ending in Z are always rejected). In the repeated hour at the end of summer time the round trip depends on which of the two mktime picks."
  },
  {
   "property": "C57",
   "status": "partial",
   "theorems": [
    "C57_storage_tells",
    "C57_storage_quiet",
    "C57_answers_partial",
    "C57_settled_partial",
    "C57_cache_partial",
    "C57_ignored_refuted",
    "C57_failed_rename_refuted",
    "C57_truncate_refuted",
    "C57_deleted_refuted"
   ],
   "note": "The cache: for any storage that keeps its side of the contract (honest: changes are announced or asked for, accepted values take effect), for all histories a cached value is current unless its change is announced and queued, or the object was written to and not flushed, or it is gone (C57_answers_partial, C57_settled_partial, C57_cache_partial). The file system storage: for all histories of requests, notifications and outside changes every property of an object that stays has its old value, the value a request asked for, or an announced change (C57_storage_tells, C57_storage_quiet). It breaks the rest of the contract: C57_ignored_refuted, C57_failed_rename_refuted, C57_truncate_refuted, C57_deleted_refuted. Missing: the composition of the two for the histories without those cases."
  },
  {
   "property": "C58",
   "status": "proved",
   "theorems": [
    "C58_lookup_is_last_effect",
    "C58_other_objects_unaffected",
    "C58_batch_lookup"
   ],
   "note": ""
  },
  {
   "property": "C59",
   "status": "partial",
   "theorems": [
    "C59_folder_moved_out_refuted",
    "C59_pairing_partial",
    "C59_last_one_refuted"
   ],
   "note": "C59_pairing_partial: for every sequence of operations and notifications whose cookies are as the kernel gives them, every move-from is handled exactly once (as a move if the next notification is its move-to, else as a deletion), and everything else exactly once. Missing: a last unpaired move-from stays remembered until some later notification (the flushing null event is never emitted), and a pair separated by another notification is a deletion and a creation. C59_last_one_refuted; C59_folder_moved_out_refuted: a non-empty folder moved out of the storage stays exported although it is gone."
  },
  {
   "property": "C60",
   "status": "proved",
   "theorems": [
    "C60_storage_ids",
    "C60_256_storages_refuted",
    "C60_object_requests",
    "C60_copy_cleanup",
    "C60_unknown_handle",
    "C60_unknown_destination",
    "C60_storage_requests",
    "C60_unknown_storage",
    "C60_delete_all",
    "C60_enumerate_all"
   ],
   "note": "Routing by the storage-id byte; C60_256_storages_refuted shows the id assignment loop never ends with 256 or more storages."
  },
  {
   "property": "C61",
   "status": "partial",
   "theorems": [
    "C61_exported_partial",
    "C61_no_new_partial",
    "C61_rename_refuted"
   ],
   "note": "C61_exported_partial: in histories without renames and moves no object has an excluded path or is a refused link. C61_no_new_partial: no other operation adds one. False with renames: C61_rename_refuted."
  },
  {
   "property": "C62",
   "status": "partial",
   "theorems": [
    "C62_distinct_paths_partial",
    "C62_distinct_labels",
    "C62_distinct_folders_partial",
    "C62_trailing_slash_refuted"
   ],
   "note": "Labels and configured path strings are distinct for every configuration. Distinct folders hold if different configured strings name different folders (C62_distinct_folders_partial); false otherwise: C62_trailing_slash_refuted."
  },
  {
   "property": "C63",
   "status": "partial",
   "theorems": [
    "C63_media_partial",
    "C63_media_refuted",
    "C63_media_any",
    "C63_listed_described",
    "C63_described_listed",
    "C63_listed_once",
    "C63_sendable",
    "C63_responder_tables",
    "C63_device_described",
    "C63_copyright_refuted",
    "C63_shipped_partial",
    "C63_formats",
    "C63_widths",
    "C63_types",
    "C63_required",
    "C63_limits",
    "C63_settable",
    "C63_device_settable"
   ],
   "note": "Proved for every object property and for the responder's tables. The shipped deviceinfo.xml advertises device property 0x501F (Copyright) without a description: C63_copyright_refuted. Formats: C63_media_partial says which formats have the properties of sound, pictures and films in the shipped configuration (C63_media_any for any), C63_media_refuted that AMR sound is described as a picture."
  },
  {
   "property": "C64",
   "status": "partial",
   "theorems": [
    "C64_once_partial",
    "C64_batch",
    "C64_only_requested",
    "C64_ready",
    "C64_percent_refuted"
   ],
   "note": "At most once for names without %, ? and # (C64_once_partial); false for others: C64_percent_refuted. Batch bound and acceptance only of requested pictures are proved without restriction."
  },
  {
   "property": "C65",
   "status": "partial",
   "theorems": [
    "C65_exact_partial",
    "C65_no_capacity",
    "C65_capacity_refuted",
    "C65_huge_refuted"
   ],
   "note": "Proved for a fixed non-zero capacity below 184 PB. A changed capacity re-announces an unchanged percentage (C65_capacity_refuted); bigger storages wrap (C65_huge_refuted)."
  },
  {
   "property": "C66",
   "status": "partial",
   "theorems": [
    "C66_visible_partial",
    "C66_unknown_refused",
    "C66_read_only_refuted"
   ],
   "note": "Proved for the two writable properties and for unknown ones. Writes to read-only properties are answered OK without effect (C66_read_only_refuted)."
  },
  {
   "property": "C67",
   "status": "partial",
   "theorems": [
    "C67_not_stranded_partial",
    "C67_comes_out_with_the_next_packet_partial",
    "C67_refuted"
   ],
   "note": "False of the code as written: C67_refuted gives a schedule of re-entrant notifications that leaves a packet unprocessed. C67_not_stranded_partial excludes exactly those (calm schedules); C67_comes_out_with_the_next_packet_partial shows that in every reachable state the next packet brings the rest out, in order."
  },
  {
   "property": "C68",
   "status": "proved",
   "theorems": [
    "C68_only_offered",
    "C68_earlier_kept",
    "C68_offered",
    "C68_no_clash"
   ],
   "note": "Only-offered, earlier-kept, exported unless the final label is taken, unchanged labels without clash: all configurations."
  },
  {
   "property": "C69",
   "status": "proved",
   "theorems": [
    "C69_eventually",
    "C69_quiet"
   ],
   "note": ""
  },
  {
   "property": "C70",
   "status": "proved",
   "theorems": [
    "C70_values",
    "C70_object_info",
    "C70_children",
    "C70_refused"
   ],
   "note": "For every state reachable by the operations of FSSpec; thumbnails are an oracle. Properties that are not in the object info (constants, thumbnails) are modelled but not part of the claim."
  },
  {
   "property": "C71",
   "status": "partial",
   "theorems": [
    "C71_only_the_name_partial",
    "C71_name_partial",
    "C71_ignored_refuted",
    "C71_failed_rename_refuted"
   ],
   "note": "The claim is false: everything but the file name is accepted and ignored (C71_ignored_refuted, C71_only_the_name_partial), and a failed rename is answered OK (C71_failed_rename_refuted). A successful rename is C49."
  },
  {
   "property": "C72",
   "status": "partial",
   "theorems": [
    "C72_passed_on_in_order_partial",
    "C72_no_crash_partial",
    "C72_answered_at_most_once",
    "C72_answered",
    "C72_forged_events_refuted"
   ],
   "note": "Proved for requests whose data stage is shorter than one event record (12 bytes); longer Cancel data is read as forged events and can crash the thread: C72_forged_events_refuted."
  },
  {
   "property": "C73",
   "status": "partial",
   "theorems": [
    "C73_last_status_partial",
    "C73_uninitialised_refuted"
   ],
   "note": "Proved from the first time a status is set; before that memory nobody initialised is sent: C73_uninitialised_refuted."
  },
  {
   "property": "C74",
   "status": "partial",
   "theorems": [
    "C74_nothing_wrong_delivered_partial",
    "C74_no_overwrite_partial",
    "C74_survives_partial",
    "C74_refuted"
   ],
   "note": "False: C74_refuted (the first packet after a resume is lost and the reader ends). Proved: nothing wrong or overwritten is ever delivered, and nothing crashes, for every interleaving."
  },
  {
   "property": "C75",
   "status": "partial",
   "theorems": [
    "C75_builtin_advertised",
    "C75_configured_advertised",
    "C75_events_unconfigured",
    "C75_operations_once",
    "C75_refuted"
   ],
   "note": "Presence is proved for every file; once-only is proved for operations and false for events after a broken file and formats listed under another heading: C75_refuted."
  },
  {
   "property": "C76",
   "status": "partial",
   "theorems": [
    "C76_names_survive_partial",
    "C76_refuted"
   ],
   "note": "Proved for names that are not blank; a blank name is replaced by the built-in one on restart: C76_refuted. Assumes that the XML library reads back the text it wrote and that writing the file succeeds."
  },
  {
   "property": "C77",
   "status": "partial",
   "theorems": [
    "C77_level_and_announcements",
    "C77_range_refuted"
   ],
   "note": "Level and announcements are proved; the values need not be ones the advertised range permits: C77_range_refuted."
  },
  {
   "property": "C78",
   "status": "proved",
   "theorems": [
    "C78_one_activation",
    "C78_all_in_order"
   ],
   "note": "The kernel's side of read(2) on an inotify descriptor is specified as inotify(7) describes it. Events the kernel drops on queue overflow are outside."
  },
  {
   "property": "C79",
   "status": "partial",
   "theorems": [
    "C79_by_extension",
    "C79_advertised_partial",
    "C79_installed",
    "C79_refuted",
    "C79_documented",
    "C79_folders",
    "C79_no_dot",
    "C79_storage",
    "C79_scanned",
    "C79_noticed",
    "C79_renamed_refuted"
   ],
   "note": "C79_documented: every extension the format documentation of mtptypes.h names (a table written from there, not from the program's) gives the documented format. By extension: proved. Advertised: proved for the installed configuration, and for every configuration for all formats but Ogg; refuted for Ogg with another configuration: C79_refuted. Case folding outside ASCII is a parameter. C79_scanned: what the first scan finds is reported with that format and the file's length (storage id too), for every disk; C79_noticed: the same for what notifications of created or moved-in files and folders bring, after any history; C79_storage: the assumption of C97 that no extension means folder holds of the program's table. C79_renamed_refuted: a file renamed by the host keeps the format of its old name until the next scan."
  },
  {
   "property": "C80",
   "status": "proved",
   "theorems": [
    "C80_asks_and_relays",
    "C80_handles_sorted",
    "C80_queries_change_nothing"
   ],
   "note": "Under the same conditions as the other transaction theorems: no cancel, reset or suspend arrives meanwhile (C21-C27 cover those), and the property tables are consistent. Property extensions are not modelled."
  },
  {
   "property": "C81",
   "status": "partial",
   "theorems": [
    "C81_announced_partial",
    "C81_own_silent",
    "C81_rewritten",
    "C81_folder_refuted",
    "C81_overwritten_refuted"
   ],
   "note": "C81_announced_partial: everything except that a folder disappearing together with its contents need not be announced (C81_folder_refuted). C81_rewritten, C81_own_silent: full. C81_overwritten_refuted: renaming a file over another one leaves the target stale and unannounced. Notifications satisfy op_ok (names as the kernel gives them, kinds kept)."
  },
  {
   "property": "C82",
   "status": "proved",
   "theorems": [
    "C82_get_object",
    "C82_get_partial_object",
    "C82_get_partial_object64"
   ],
   "note": "Proved over the composed model for objects whose recorded size is the file size (holds_file; C70/C81 say when) and whose contents fit the container length for GetObject; disk reads succeed (works C)."
  },
  {
   "property": "C83",
   "status": "proved",
   "theorems": [
    "C83_send_object",
    "C83_announce"
   ],
   "note": "C83_announce (SendObjectInfo) and C83_send_object; sizes below 4 GiB; disk writes succeed (works C). Variant with SendObjectPropList: C34/C39 only."
  },
  {
   "property": "C84",
   "status": "proved",
   "theorems": [
    "C84_round_trip"
   ],
   "note": "C84_round_trip; the name is not taken; sizes that fit a 32 bit container; disk operations succeed."
  },
  {
   "property": "C85",
   "status": "partial",
   "theorems": [
    "C85_get_object_handles",
    "C85_get_num_objects",
    "C85_get_object_info"
   ],
   "note": "As C44: the format filter 0x3000 together with a folder is excluded."
  },
  {
   "property": "C86",
   "status": "partial",
   "theorems": [
    "C86_delete_object",
    "C86_move_object",
    "C86_copy_object",
    "C86_copy_full"
   ],
   "note": "Delete: a folder itself may remain although OK is answered (C45_folder_left_refuted); move: the target name is not a known object whose file vanished (C46_vanished_target_refuted); copy: what a copy that did not fit left behind is deleted again and nothing else is lost (C86_copy_full; with the same reservation about a folder that itself remains); contents of copies for vacant targets."
  },
  {
   "property": "C87",
   "status": "proved",
   "theorems": [
    "C87_send_partial",
    "C87_truncate",
    "C87_begin",
    "C87_end",
    "C87_whole_edit"
   ],
   "note": "The event switch and flush that BeginEditObject and EndEditObject ask for are left to the rest of the device."
  },
  {
   "property": "C89",
   "status": "partial",
   "theorems": [
    "C89_add_result",
    "C89_delete_result",
    "C89_delete_all_result",
    "C89_move_result",
    "C89_rename_result",
    "C89_copy_result",
    "C89_every_operation_ends_partial",
    "C89_enumeration_ends",
    "C89_copy_into_itself_refuted"
   ],
   "note": "Copying a folder into itself or into something inside it is excluded; C89_copy_into_itself_refuted proves that copying a folder into itself never ends."
  },
  {
   "property": "C88",
   "status": "proved",
   "theorems": [
    "C88_set_property",
    "C88_shipped"
   ],
   "note": "That an accepted value of another writable property is not kept, and a failed rename is answered OK, is part of the statement here and counted as a defect under C71. The root folder (handle 0) is only covered for refusals."
  },
  {
   "property": "C90",
   "status": "partial",
   "theorems": [
    "C90_thumbnail_partial",
    "C90_refused_refuted",
    "C90_shipped"
   ],
   "note": "What holds is C90_thumbnail_partial and its companions. The claim as stated fails when the storage refuses (an unknown object, for one): C90_refused_refuted shows that then, for every object and every refusal, nothing is sent and the responder keeps waiting; see also C21 and C27."
  },
  {
   "property": "C91",
   "status": "partial",
   "theorems": [
    "C91_request",
    "C91_too_large",
    "C91_refused_list_refuted"
   ],
   "note": "C91_refused_list_refuted: after a refused property list the stale announcement remains, and the content that follows is written to object 0. File name elements are assumed to carry string values (the conversion of numbers to strings is not modelled). If SendObjectInfo announced an object before, that one is still preferred (C32_latest_refuted), hence the hypothesis r_seq = None for the announcement."
  },
  {
   "property": "C92",
   "status": "partial",
   "theorems": [
    "C92_whole_containers",
    "C92_commands",
    "C92_data_request",
    "C92_send_object",
    "C92_cut_command_refuted",
    "C92_big_object",
    "C92_big_object_info_refuted",
    "C92_big_device",
    "C92_send_partial",
    "C92_send_announced"
   ],
   "note": "C92_cut_command_refuted: a command cut across two packets, its length field whole, is never answered and resets the transport twice. Containers with length field 0xFFFFFFFF: C92_big_object (announced by SendObjectPropList, up to the 4 GiB it admits; C92_big_device: on the storage the file then holds exactly the content), C92_big_object_info_refuted (by SendObjectInfo the device takes the field for the length and answers IncompleteTransfer). C92_send_object is for announcements by SendObjectInfo, C92_send_announced for both ways; C92_send_partial covers content written into an object being edited, for every answer. That a reset also empties the reader ring is not modelled."
  },
  {
   "property": "C93",
   "status": "partial",
   "theorems": [
    "C93_last_packets_partial",
    "C93_content_executed_refuted",
    "C93_zeros_refuted"
   ],
   "note": "C93_last_packets_partial covers failures with at most one packet of content left. With two or more the claim is false: C93_content_executed_refuted (content bytes executed as a DeleteObject command), C93_zeros_refuted (content of zeros reads outside the packet). That a reset also empties the reader ring buffer is not modelled: the refutations apply to packets read after it."
  },
  {
   "property": "C94",
   "status": "partial",
   "theorems": [
    "C94_format_partial",
    "C94_everything_partial",
    "C94_answer_refuted",
    "C94_format_request",
    "C94_everything_request",
    "C94_tree_request"
   ],
   "note": "Effects proved for formats whose objects have no children and for everything (format 0). The answer is false: C94_answer_refuted (OK or PartialDeletion depends on the order of the hash table; deleting everything is never OK). Formats whose objects have children walk freed items: C42_delete_folders_refuted."
  },
  {
   "property": "C95",
   "status": "partial",
   "theorems": [
    "C95_never_passed_off",
    "C95_next_request_refuted"
   ],
   "note": "All but the last part of the statement is proved (C95_never_passed_off). False: after a failure in mid-transfer no response is sent and the next packet is thrown away with a transport reset (C95_next_request_refuted)."
  },
  {
   "property": "C96",
   "status": "partial",
   "theorems": [
    "C96_get_value"
   ],
   "note": "Proved given that the storage factory answers with current values (serves), which is what C57 and C70 prove of the factory and the storage, with the exceptions listed there (C57 refutations)."
  },
  {
   "property": "C97",
   "status": "partial",
   "theorems": [
    "C97_enumeration_partial",
    "C97_kept_partial",
    "C97_history_partial",
    "C97_failed_copy_refuted",
    "C97_rename_refuted",
    "C97_replaced_file_refuted"
   ],
   "note": "Proved: after the start every folder object is watched, and any operation keeps every folder watched except in four cases that the theorem names: a copy that fails half-way, a file another program replaced by a folder of the same name, a folder in a renamed folder, and a folder found missing from the disk while it is moved (C97_enumeration_partial, C97_kept_partial, C97_history_partial). The first three are real losses (C97_failed_copy_refuted, C97_replaced_file_refuted, C97_rename_refuted). Assumed of the kernel: it accepts a watch exactly on what exists and never reuses a watch number."
  },
  {
   "property": "C98",
   "status": "proved",
   "theorems": [
    "C98_announce",
    "C98_refused",
    "C98_content",
    "C98_round_trip"
   ],
   "note": "C98_announce, C98_refused, C98_content (objects announced either way, any size up to 2^64), C98_round_trip. The disk works and nobody cancels (at_work, works); the recursion bound of the storage model suffices (add_item .. = Ret); file name elements carry strings; each property description bears its own code. With an older SendObjectInfo pending see C32_latest_refuted; after a refused list see C91_refused_list_refuted."
  },
  {
   "property": "C99",
   "status": "partial",
   "theorems": [
    "C99_default",
    "C99_default_refuted",
    "C99_shipped",
    "C99_device",
    "C99_battery_refuted"
   ],
   "note": "C99_default and C99_device are exact conditions for all configurations; the English claim itself is false of the code: C99_default_refuted (sample rate, video codec and thumbnail format default to 0, which their lists never contain, whatever the device), C99_battery_refuted (57 percent against steps of ten). C99_shipped gives the shipped configuration. String and array properties carry no restriction here."
  }
 ]
}