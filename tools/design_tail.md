
## 5. What is modelled and what is not

Modelled function by function: mtpcontainer.cpp, mtprxcontainer.cpp, mtptxcontainer.cpp,
mtpresponder.cpp (every operation, receiveContainer, sendContainer, sendResponse,
segmented reads and writes, events, suspend/resume/cancel/reset, deferred commands),
objectpropertycache.cpp, propertypod.cpp (tables), storagefactory.cpp,
fsstorageplugin.cpp (enumeration, add/delete/move/copy/rename, read/write/truncate,
object info and property values, references, id files, inotify handling, free space),
storageplugin.cpp (copyData, timestamps), fsinotify.cpp (parser), fsstoragepluginfactory.cpp (labels, paths),
thumbnailer.cpp (queues and batches), threadio.cpp (all four threads),
mtptransporterusb.cpp (framing, events, sendData, reset, start/stop of reading),
mtpdeviceinfo.cpp, xmlhandler.cpp, deviceinfoprovider.cpp (battery).

Not modelled: logging; mts.cpp, service.cpp and the D-Bus glue; the dummy transport; the
USB descriptors (descriptor.c, mtp1descriptors.h); plugin loading by QPluginLoader/dlopen;
the contents of thumbnails and of the Tracker/thumbnailer services (oracles); Qt's own
XML, URL and UTF conversion beyond what is stated; MIME type detection (an oracle giving a
format for a path); file modification dates beyond the codec of C56; the vendor-extension
manager (its list is empty in this code base: every query falls through); memory exhaustion;
the relative speed of threads (no fairness is assumed; liveness is stated as
`can always continue'); the big-endian code paths, which are not compiled.

## 6. Findings

Defects the modelling exposed, in the code as pinned (those with a theorem name are proved
about the model; the others follow from reading the same lines).

*Wire and transport*
* Deserialising trusts every length in the container (C08_bounds_refuted); a sixth command
  parameter is written outside the parameter vector (C09_six_parameters_refuted).
* The transmit buffer's growth computation wraps beyond 2 GiB (C03_over_2GiB_refuted); a leading byte
  order mark is dropped from strings (C04_bom_refuted); 128-bit ids are
  ordered with signed char (C10_order_signed_char_refuted); the portable big-endian `putl`
  branches are wrong (not compiled).
* A container length of 0 makes processReceivedData loop for ever (C15_zero_length_refuted).
* A failed zero length packet counts as success (C17_refuted).
* A reset during an event write wedges all later sends (C20_refuted); a wake-up is lost if
  sendOne comes while the interrupt thread is still starting.
* Data in both parts of the receive buffer plus a second nested notification leaves a packet
  unprocessed until the next one (C67_refuted).
* Bus suspend resets the receive buffer while the reader thread is inside read(2): the
  first packet after resume is lost and the reader thread ends (C74_refuted).
* The control thread reads the data stage of a Cancel request as if it were a kernel event
  record: a host that announces 12 or more bytes forges USB state changes, and a type
  above 6 indexes `event_names` out of bounds (C72_forged_events_refuted). The device
  status is never initialised (C73_uninitialised_refuted).

*Responder*
* GetThumb failure: no response, and the next command is swallowed (C21_…_refuted);
  a read failing in mid-transfer: no response, and the next request is thrown away (C95_next_request_refuted). Responses carry the transaction id modulo 65536
  (C22_large_id_refuted). GetObjectPropsSupported works without a session
  (C23_props_supported_refuted), CloseSession ignores its transaction id (C24_close_session_refuted).
* GetObject truncates objects over 4 GiB - 13 bytes with OK (C29_large_object_refuted); a transport failure
  on the first data packet is ignored (C30_first_packet_refuted).
* SendObject with more bytes than announced is answered OK, with SendObjectInfo followed by
  SendObjectPropList it writes the older object with the newer size, and a cancel then deletes the other one
  (C31, C32, C33 refutations). SendObject and SendPartialObject64 ignore their data header (C38 refutations).
* Edit mode survives the session (C34 refuted); all events are lost while suspended (C35 refuted); after a
  response delivered on resume the next command is thrown away with a transport reset (C36 refuted); a data packet while
  suspended is parsed as a command; suspend + failing GetThumb + resume makes an advertised operation
  unsupported (C27 refuted).
* Null dereference when GetPartialObject or CopyObject is cancelled or reset.
* GetObjectPropList: depth 0xFFFFFFFF is served like 1, the format is ignored at depth 0 (C40 refutations).
* SetDevicePropValue on a read-only property is answered OK without effect (C66_read_only_refuted); Copyright (0x501F) is
  advertised without description (C63_copyright_refuted); the defaults of Sample_Rate, Video_FourCC_Codec, Rep_Sample_Format and, as
  shipped, the number of channels are not among their permitted values, and the battery level is sent exactly although its range has steps of ten (C99 refutations); SetObjectPropList uses the host's data type.
* PropertyPod is constructed before m_extensionManager.

* A write that fails during SendObject with more than one packet to come: the rest of the content is read as fresh containers,
  so file bytes can be executed as commands (C93_content_executed_refuted) or read past the packet (C93_zeros_refuted).

*Storage*
* 256 or more storages loop for ever (C60_256_storages_refuted); the handle counter wraps (C41_wraparound_refuted).
* The final rmdir of a deleted folder is unchecked, so OK though the folder remains (C45); deleting everything is never OK, and
  deleting by format answers OK or PartialDeletion depending on the order of a hash table (C94_answer_refuted);
  DeleteObject(0xFFFFFFFF, Association) with nested folders uses freed items.
* Format filter 0x3000 is treated inconsistently (C44).
* Between notifications: a folder replaced by a file leaves a stale watch and later crashes enumeration; a file replaced
  by a folder goes unnoticed; a cross-folder rename uses the old name; the last unpaired move-from waits
  for a later event; quick consecutive external moves are lost (C59 refuted).
* A folder with contents that is moved out of the storage: the contents are dropped and announced, but the final call of
  deleteItemHelper uses its default arguments, so the folder itself stays exported, or, if another program has made an
  empty folder of that name, that folder is deleted from the disk unannounced (C59_folder_moved_out_refuted,
  C81_folder_refuted). A file renamed over another one leaves the target's size stale (C81_overwritten_refuted).
* Renaming re-adds watches before the children's paths are adjusted, so subfolders become unwatched (C97_rename_refuted); rename of the
  root dereferences a null parent; a failed rename and a rename to the empty name are answered OK (C71).
* addItem validates neither names nor that the parent is a folder (C48); objects can be renamed or
  moved into excluded paths (C61_rename_refuted); createIfNotExist on an existing untracked folder truncates its files.
* CopyObject of a folder into itself never ends (C89_copy_into_itself_refuted); copying onto an existing name overwrites silently (C47_occupied_refuted), and a
  cancel then deletes the original; an empty file copied over another leaves its content; error paths leave the
  target unwatched; the closing call's OK replaces a failed last chunk (C53); sizes are 32 bit.
* MoveObject onto a tracked but vanished name gives two handles one path (C46_vanished_target_refuted).
* Persistent ids: UTF-16 length with UTF-8 bytes loses or exchanges ids of non-ASCII paths; signed char comparison
  restarts numbering; a storage that is not mounted loses its ids; a cut file mixes two ids; a crash loses all new ids; moved or deleted objects'
  ids are not updated, so two objects can share one (C54 refutations). References of and to folders and of playlists are lost
  on restart, and the file is shared by all storages (C55 refutations); a name length 0xFFFFFFFF overflows the heap.
* Cache: every value a plugin accepts is cached even when ignored; properties of the children of a
  deleted folder stay; size changes by SendObject and TruncateObject64 are not flushed (C57 refutations).
* Timestamps: 'Z' times are rejected, the offset correction has the wrong sign, time -1 cannot be represented (C56 refutations).
* Free space percentage wraps over 184 PB, and a capacity change re-announces the same percentage (C65 refutations).

*Configuration*
* "/h" and "/h/" are exported twice (C62_trailing_slash_refuted); labels containing %1 are mangled by QString::arg;
  five rounds of renumbering can be too few.
* Thumbnails of names with %XX, ? or # are requested again and again (C64_percent_refuted).
* Device info: after a configuration file that breaks off, the built-in events, codecs and channels are
  appended to those already read, and a format the file lists under another heading than the built-in one
  is advertised twice (C75_refuted); AMR (an audio format) is built in as an image format; Ogg is not built
  in at all, so with another configuration file .ogg files get a format that was never advertised
  (C79_refuted); a blank friendly name lasts until the next start only (C76_refuted); the battery level is
  described as a range with step 10 and reported with step 1 (C77_range_refuted).
* Notifications: a queue overflow record has no name and is dropped, the storage is not rescanned.
* Objects near 4 GiB: announced by SendObjectInfo with size 0xFFFFFFFF, the data container's length field is
  taken at its word and the object is emptied with IncompleteTransfer after 4 GiB - 13 bytes of content
  (C92_big_object_info_refuted); announced by SendObjectPropList it is stored (C92_big_object).
* AMR sound (.amr, format 0xB908) stands in the table of picture formats (mtpdeviceinfo.cpp:193): its
  supported properties are width, height and the thumbnail's, not artist and duration (C63_media_refuted).
* A file renamed by the host (SetObjectPropValue of the file name) keeps the format of its old name: x.Mp3
  renamed to x.txt is still reported as sound, until the storage is scanned again
  (fsstorageplugin.cpp:2833-2857, C79_renamed_refuted).
