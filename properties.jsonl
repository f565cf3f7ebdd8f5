{"id": "C01", "title": "Integers survive the wire", "statement": "Every 8/16/32/64/128-bit integer the responder puts in a container occupies exactly its width in bytes, least significant byte first, and reading it back from a received container yields the same integer and leaves the cursor just after it.", "quantifier": "all values of each width, all preceding and following bytes", "why_tests_cant": "2^64 (2^128) values times all surrounding contents", "anchors": ["mts/protocol/mtpcontainer.cpp: getl16/getl32/getl64, putl16/putl32/putl64", "mts/protocol/mtptxcontainer.cpp: serialize, operator<<", "mts/protocol/mtprxcontainer.cpp: deserialize, operator>>"]}
{"id": "C02", "title": "Container header states the real length", "statement": "Every container handed to the transport starts with a 12 byte header whose length field is the number of bytes handed over (or 0xFFFFFFFF when flagged as over-long), followed by the type, the code and the transaction id it was created with, followed by exactly the bytes written to it, in order.", "quantifier": "all types, codes, transaction ids, all sequences of writes", "why_tests_cant": "unbounded sequences of writes", "anchors": ["mts/protocol/mtptxcontainer.cpp: MTPTxContainer, buffer, serialize", "mts/protocol/mtpcontainer.cpp: MTPContainer"]}
{"id": "C03", "title": "Growing the output buffer loses nothing", "statement": "Whatever the initial capacity estimate and however many values are written, growing the transmit buffer never loses, reorders or overwrites bytes already written and every write lands inside the allocation.", "quantifier": "all initial capacities, all sequences of writes of at most 2 GiB - 256 bytes in total", "why_tests_cant": "unbounded interleavings of growth and writes", "anchors": ["mts/protocol/mtptxcontainer.cpp: expandBuffer, serialize, serializeVariantByType"]}
{"id": "C04", "title": "Strings survive the wire", "statement": "Every string of at most 254 UTF-16 units without an embedded NUL that is written to a container is read back unchanged; longer strings come back as exactly their first 254 units; the encoding never exceeds 511 bytes and an empty string is the single byte 0.", "quantifier": "all strings of every length", "why_tests_cant": "unbounded string contents and lengths", "anchors": ["mts/protocol/mtptxcontainer.cpp: operator<<(QString)", "mts/protocol/mtprxcontainer.cpp: operator>>(QString)"]}
{"id": "C05", "title": "Arrays survive the wire", "statement": "Every array of 8/16/32/64/128-bit elements in a container below 2 GiB is read back unchanged, whatever follows it in the container.", "quantifier": "all arrays of every length and content", "why_tests_cant": "unbounded arrays", "anchors": ["mts/protocol/mtptxcontainer.cpp: operator<<(QVector)", "mts/protocol/mtprxcontainer.cpp: operator>>(QVector)"]}
{"id": "C06", "title": "Property values survive the wire for every data type", "statement": "For every MTP data type and every value of it, writing the value as a property and reading it back with the same type code yields the same value; an unsupported type code writes nothing.", "quantifier": "all 21 data type codes and all their values", "why_tests_cant": "product of unbounded value domains", "anchors": ["mts/protocol/mtptxcontainer.cpp: serializeVariantByType", "mts/protocol/mtprxcontainer.cpp: deserializeVariantByType"]}
{"id": "C07", "title": "ObjectInfo datasets survive the wire", "statement": "Writing an ObjectInfo dataset and reading it back yields the same storage, format, protection, thumbnail, image, parent, association, sequence, file name and dates, and the size modulo 2^32.", "quantifier": "all object info records", "why_tests_cant": "unbounded strings and 64-bit sizes", "anchors": ["mts/protocol/mtptxcontainer.cpp: operator<<(MTPObjectInfo)", "mts/protocol/mtprxcontainer.cpp: operator>>(MTPObjectInfo)"]}
{"id": "C08", "title": "Parsing never leaves the received container", "statement": "No data phase sent by the initiator can make the responder read outside the bytes it received: datasets that are truncated or carry element counts larger than the data are rejected.", "quantifier": "all byte strings as received containers", "why_tests_cant": "all byte strings", "anchors": ["mts/protocol/mtprxcontainer.cpp: deserialize, operator>>, MTPRxContainer, append", "mts/protocol/mtpcontainer.cpp: params"]}
{"id": "C09", "title": "Command parameters are what the initiator sent", "statement": "For every command container with at most five parameters, the responder sees exactly the parameters sent, with the absent ones read as zero.", "quantifier": "all command containers", "why_tests_cant": "2^160 parameter combinations; also malformed lengths", "anchors": ["mts/protocol/mtpcontainer.cpp: params"]}
{"id": "C10", "title": "128-bit object ids are ordered and counted as numbers", "statement": "Incrementing a 128-bit persistent object id adds one modulo 2^128, equality is numeric equality, and the greater-than order is the numeric order.", "quantifier": "all 128-bit ids", "why_tests_cant": "2^256 pairs", "anchors": ["mts/common/mtptypes.h: MtpInt128"]}
{"id": "C11", "title": "No received byte is lost, repeated or reordered", "statement": "Under every interleaving of the USB reader thread and the consumer, the bytes the consumer obtains are exactly the bytes read from the endpoint, in order.", "quantifier": "all schedules of reads, fetches and releases, all read sizes", "why_tests_cant": "unbounded schedules of two threads", "anchors": ["mts/transport/usb/threadio.cpp: BulkReaderThread::execute,_getOffset_locked,_markNewData,getData,releaseData"]}
{"id": "C12", "title": "The USB reader never overwrites data still in use", "statement": "At every moment of every schedule the region of an in-flight read lies inside the buffer and is disjoint from all received bytes not yet released, and the reader never stops because of an inconsistent offset.", "quantifier": "all schedules", "why_tests_cant": "races depend on timing", "anchors": ["mts/transport/usb/threadio.cpp: BulkReaderThread"]}
{"id": "C13", "title": "The USB reader cannot starve", "statement": "Whenever the consumer has released everything, the reader has room to read again; the buffer never reaches a state from which no further read is possible.", "quantifier": "all schedules", "why_tests_cant": "requires reasoning about all reachable buffer states", "anchors": ["mts/transport/usb/threadio.cpp: BulkReaderThread::_getOffset_locked, releaseData"]}
{"id": "C14", "title": "Packet boundaries do not matter", "statement": "For every way of cutting a stream of containers into received packets (with each container's 4-byte length field not cut), the responder is given, per container, chunks that concatenate to that container, flagged first exactly on the first and last exactly on the last chunk.", "quantifier": "all container sequences and all packetisations", "why_tests_cant": "unbounded streams and cuts", "anchors": ["mts/transport/usb/mtptransporterusb.cpp: processReceivedData"]}
{"id": "C15", "title": "Malformed container lengths cannot hang the transport", "statement": "Processing a received packet always terminates, whatever the length field says.", "quantifier": "all received packets", "why_tests_cant": "all byte strings", "anchors": ["mts/transport/usb/mtptransporterusb.cpp: processReceivedData", "mts/protocol/mtpresponder.cpp: receiveContainer"]}
{"id": "C16", "title": "Bulk writes deliver every byte in order or report failure", "statement": "For every pattern of short writes and errors, the bytes that reach the endpoint are a prefix of the data in order without gaps or repeats, and success is reported exactly when all bytes were written.", "quantifier": "all data, all sequences of write results and errors", "why_tests_cant": "unbounded fault schedules", "anchors": ["mts/transport/usb/threadio.cpp: BulkWriterThread::execute"]}
{"id": "C17", "title": "Transfers end with a short packet and only there", "statement": "A transfer that is asked to be terminated ends with a short or zero length packet, and no earlier packet of it is short (when the endpoint accepts whole writes).", "quantifier": "all lengths and error schedules", "why_tests_cant": "depends on length modulo 512 and on fault schedule", "anchors": ["mts/transport/usb/threadio.cpp: BulkWriterThread::execute"]}
{"id": "C18", "title": "The event queue is bounded and drops the oldest", "statement": "At most 512 events are queued; when full the oldest are dropped; events are transmitted in the order they were queued and none is transmitted twice after success.", "quantifier": "all sequences of event additions, wake-ups and write results", "why_tests_cant": "unbounded event histories", "anchors": ["mts/transport/usb/threadio.cpp: InterruptWriterThread::addData, execute, flushData"]}
{"id": "C19", "title": "Event transmission never disturbs commands", "statement": "An event write is only started while no bulk write is active, no command is being handled and a session is open, at most one event write is in progress, and after three successive timeouts no event is attempted until the next session.", "quantifier": "all histories of transporter notifications", "why_tests_cant": "unbounded histories", "anchors": ["mts/transport/usb/mtptransporterusb.cpp: sendQueuedEvent, sendEvent, eventTimeout, eventCompleted, sessionOpenChanged"]}
{"id": "C20", "title": "Sending data always completes", "statement": "A bulk send request eventually completes once the endpoint accepts data, whatever happened to event transmission before.", "quantifier": "all histories of resets, unbinds and event writes", "why_tests_cant": "needs the absence of a stuck state over all histories", "anchors": ["mts/transport/usb/mtptransporterusb.cpp: sendData, reset, closeDevices, eventCompleted", "mts/transport/usb/threadio.cpp: InterruptWriterThread::execute"]}
{"id": "C21", "title": "Exactly one response per command", "statement": "Every command with a complete data phase is answered by exactly one response container, unless it was cancelled, suspended or the transport failed.", "quantifier": "all commands, all storage behaviours, all command sequences", "why_tests_cant": "all sequences and all storage failures", "anchors": ["mts/protocol/mtpresponder.cpp: commandHandler, dataHandler, sendResponse, *Req, *Data"]}
{"id": "C22", "title": "Responses carry the transaction id of their command", "statement": "The response to a command carries the transaction id of that command.", "quantifier": "all transaction ids, all commands", "why_tests_cant": "2^32 ids and all handlers", "anchors": ["mts/protocol/mtpresponder.cpp: sendResponse"]}
{"id": "C23", "title": "Nothing but GetDeviceInfo and OpenSession works without a session", "statement": "With no open session every session-bound operation is answered SessionNotOpen and neither the storage nor the device properties are read or changed.", "quantifier": "all such operations, parameters, transaction ids, storage states", "why_tests_cant": "all operations and parameters", "anchors": ["mts/protocol/mtpresponder.cpp: preCheck and all *Req"]}
{"id": "C24", "title": "Invalid transaction ids are rejected", "statement": "A command whose transaction id is 0 or 0xFFFFFFFF is answered InvalidTransID (when a session is open) without any effect on the storage.", "quantifier": "all commands and parameters", "why_tests_cant": "all operations and parameters", "anchors": ["mts/protocol/mtpresponder.cpp: preCheck"]}
{"id": "C25", "title": "Session life cycle", "statement": "OpenSession succeeds exactly when no session is open and the requested id is not 0, answering InvalidParameter resp. SessionAlreadyOpen (with the open id) otherwise; CloseSession succeeds exactly when one is open; the open session changes in no other way.", "quantifier": "all command sequences", "why_tests_cant": "unbounded histories", "anchors": ["mts/protocol/mtpresponder.cpp: openSessionReq, closeSessionReq"]}
{"id": "C26", "title": "Unknown operations are refused", "statement": "An operation code that is neither built in nor claimed by an extension is answered OperationNotSupported with no effect on session, storage, object sequence or edit state.", "quantifier": "all 2^16 operation codes and states", "why_tests_cant": "all codes times all states", "anchors": ["mts/protocol/mtpresponder.cpp: commandHandler, createCommandHandler"]}
{"id": "C27", "title": "Every advertised operation is implemented", "statement": "Every operation the device info advertises has a handler that does not answer OperationNotSupported.", "quantifier": "all advertised operations", "why_tests_cant": "cross-table consistency", "anchors": ["mts/platform/deviceinfo/mtpdeviceinfo.cpp: m_operationsSupportedTable", "mts/protocol/mtpresponder.cpp: createCommandHandler"]}
{"id": "C28", "title": "Partial reads return exactly the requested range", "statement": "GetPartialObject and GetPartialObject64 return exactly the bytes [offset, min(offset+length, size)) of the object, answer InvalidParameter for offsets beyond the end, and never read outside the object, for every 32/64-bit offset and length including those whose sum overflows.", "quantifier": "all object sizes up to 2^64, offsets, lengths", "why_tests_cant": "2^64 offsets and lengths; wrap-around", "anchors": ["mts/protocol/mtpresponder.cpp: getObjectCommon, getPartialObjectReq, getPartialObject64Req"]}
{"id": "C29", "title": "GetObject delivers the whole object", "statement": "The data phase of GetObject is one 12 byte header carrying the correct length followed by the object's bytes in order, split in packets of at most 16384 bytes of which exactly the last is marked last.", "quantifier": "all objects of every size", "why_tests_cant": "unbounded sizes; boundary cases at multiples of the packet size and 4 GiB", "anchors": ["mts/protocol/mtpresponder.cpp: getObjectReq, sendObjectSegmented"]}
{"id": "C30", "title": "A failed or cancelled object read is never reported as complete", "statement": "If reading the object or sending a segment fails, the transfer is not followed by an OK response claiming all bytes.", "quantifier": "all failure points", "why_tests_cant": "all failure points in an unbounded sequence of segments", "anchors": ["mts/protocol/mtpresponder.cpp: sendObjectSegmented"]}
{"id": "C31", "title": "SendObject stores exactly the bytes received", "statement": "For every way the object data is cut into packets, the bytes written to the announced object are the payload in order, and OK is answered exactly when the payload length equals the announced size and all writes succeeded.", "quantifier": "all payloads and packetisations, all storage write failures", "why_tests_cant": "unbounded data and cuts", "anchors": ["mts/protocol/mtpresponder.cpp: sendObjectData, sendObjectCheck"]}
{"id": "C32", "title": "SendObject goes to the most recently announced object", "statement": "SendObject writes to the object announced by the latest successful SendObjectInfo or SendObjectPropList, and is refused with NoValidObjectInfo when there is none.", "quantifier": "all command histories", "why_tests_cant": "depends on history", "anchors": ["mts/protocol/mtpresponder.cpp: sendObjectInfoData, sendObjectPropListReq, sendObjectPropListData, sendObjectReq"]}
{"id": "C33", "title": "Cancelling a send removes the partial object", "statement": "Cancelling during SendObject removes the object being received, ends the transaction without a response, and the next command is handled normally.", "quantifier": "all cancel points in all histories", "why_tests_cant": "any packet boundary may be the cancel point", "anchors": ["mts/protocol/mtpresponder.cpp: handleCancelTransaction, sendContainer, receiveContainer"]}
{"id": "C34", "title": "Partial writes need an open edit on that object", "statement": "SendPartialObject64, TruncateObject64 and EndEditObject change an object only between BeginEditObject and EndEditObject for that very object in the same session.", "quantifier": "all command histories", "why_tests_cant": "unbounded histories", "anchors": ["mts/protocol/mtpresponder.cpp: beginEditObjectReq, endEditObjectReq, sendPartialObject64Data, truncateObject64Req, closeSession"]}
{"id": "C35", "title": "Change events are filtered per object", "statement": "ObjectRemoved, ObjectInfoChanged and ObjectPropChanged events reach the initiator only for objects with events enabled, and all other events always.", "quantifier": "all events and object states", "why_tests_cant": "all events and states", "anchors": ["mts/protocol/mtpresponder.cpp: dispatchEvent", "mts/platform/storage/fsstorageplugin/fsstorageplugin.cpp: getEventsEnabled"]}
{"id": "C36", "title": "Suspension postpones, it does not lose", "statement": "A response or data container produced while suspended is sent exactly once when resumed, and the responder then accepts the next command.", "quantifier": "all suspend/resume points", "why_tests_cant": "all histories", "anchors": ["mts/protocol/mtpresponder.cpp: sendContainer, suspend, resume"]}
{"id": "C37", "title": "Commands received before storage is ready are executed later", "statement": "A command that needs storage and arrives before storage is ready is executed exactly once when storage becomes ready, together with its data phase; other commands are executed at once.", "quantifier": "all arrival orders", "why_tests_cant": "orderings", "anchors": ["mts/protocol/mtpresponder.cpp: commandHandler, receiveContainer, onStorageReady, needsStorageReady"]}
{"id": "C38", "title": "Data phase must match its command", "statement": "Data whose transaction id or operation code differs from the command being processed is never applied to the storage.", "quantifier": "all data containers", "why_tests_cant": "all ids and codes", "anchors": ["mts/protocol/mtpresponder.cpp: dataHandler"]}
{"id": "C39", "title": "SetObjectPropList stops at the first failure and says where", "statement": "SetObjectPropList applies the elements in order, stops at the first that fails and answers that failure with the index of the failing element; elements after it are not applied.", "quantifier": "all property lists and storage behaviours", "why_tests_cant": "unbounded lists", "anchors": ["mts/protocol/mtpresponder.cpp: setObjectPropListData"]}
{"id": "C40", "title": "GetObjectPropList is complete", "statement": "GetObjectPropList returns one element for every requested property of every object in the requested depth/format, with a count equal to the number of elements.", "quantifier": "all property lists, trees", "why_tests_cant": "unbounded trees", "anchors": ["mts/protocol/mtpresponder.cpp: getObjectPropListReq, serializePropList"]}
{"id": "C41", "title": "Object handles are unique", "statement": "No two live objects ever share a handle and no object gets the reserved handles 0 or 0xFFFFFFFF.", "quantifier": "all allocation histories", "why_tests_cant": "2^32 allocations", "anchors": ["mts/platform/storage/storagefactory.cpp: getObjectHandle"]}
{"id": "C42", "title": "Handle, path and parent tables agree", "statement": "In every reachable state each handle denotes one object, each path at most one handle, each object's parent is a live folder whose child list contains it exactly once, and an object's path is its parent's path plus its name.", "quantifier": "all sequences of storage operations", "why_tests_cant": "unbounded histories", "anchors": ["mts/platform/storage/fsstorageplugin/fsstorageplugin.cpp: addItemToMaps, linkChildStorageItem, unlinkChildStorageItem, removeFromStorage, moveObject, setObjectPropertyValue"]}
{"id": "C43", "title": "Sibling lists stay intact", "statement": "Linking and unlinking children keeps the child list of every folder acyclic and equal to the set of its children, whatever the order of operations.", "quantifier": "all sequences of link/unlink", "why_tests_cant": "pointer structure invariants over all histories", "anchors": ["mts/platform/storage/fsstorageplugin/fsstorageplugin.cpp: linkChildStorageItem, unlinkChildStorageItem"]}
{"id": "C44", "title": "Object enumeration is exact", "statement": "GetObjectHandles/GetNumObjects return exactly the objects asked for - all, root level or children of a folder, optionally of one format - each once, and InvalidParentObject for a parent that is not a folder.", "quantifier": "all trees, parents, formats", "why_tests_cant": "unbounded trees", "anchors": ["mts/platform/storage/fsstorageplugin/fsstorageplugin.cpp: getObjectHandles", "mts/platform/storage/storagefactory.cpp: getObjectHandles"]}
{"id": "C45", "title": "Deletion removes the whole subtree and nothing else", "statement": "Deleting an object removes exactly it and its descendants from the storage and leaves every other object, its path and its contents unchanged; the storage root is never deleted; OK is answered only if everything was removed.", "quantifier": "all trees and deletion failures", "why_tests_cant": "unbounded trees and failures", "anchors": ["mts/platform/storage/fsstorageplugin/fsstorageplugin.cpp: deleteItem, deleteItemHelper, removeFromStorage"]}
{"id": "C46", "title": "Moving keeps identity", "statement": "Moving or renaming an object keeps its handle and persistent id and those of its descendants, changes their paths to the new location and leaves all other objects unchanged.", "quantifier": "all trees and move targets", "why_tests_cant": "unbounded trees", "anchors": ["mts/platform/storage/fsstorageplugin/fsstorageplugin.cpp: moveObject, adjustMovedItemsPath, setObjectPropertyValue"]}
{"id": "C47", "title": "Copying leaves the source alone", "statement": "Copying an object creates new objects with fresh handles below the target with the same names and contents and leaves the source unchanged.", "quantifier": "all trees", "why_tests_cant": "unbounded trees", "anchors": ["mts/platform/storage/fsstorageplugin/fsstorageplugin.cpp: copyObject", "mts/platform/storage/storageplugin.cpp: copyData"]}
{"id": "C48", "title": "Initiators cannot reach outside the exported folder", "statement": "No file name supplied by an initiator (SendObjectInfo, SendObjectPropList, rename) can create, change or expose a file outside the storage's folder.", "quantifier": "all file names", "why_tests_cant": "all strings", "anchors": ["mts/platform/storage/fsstorageplugin/fsstorageplugin.cpp: addItem, isFileNameValid, setObjectPropertyValue"]}
{"id": "C49", "title": "Invalid new names are refused", "statement": "Renaming to a name containing an illegal character, consisting only of dots, or already present in the folder is refused and changes nothing.", "quantifier": "all names and folders", "why_tests_cant": "all strings", "anchors": ["mts/platform/storage/fsstorageplugin/fsstorageplugin.cpp: isFileNameValid, setObjectPropertyValue"]}
{"id": "C50", "title": "Written data is the file", "statement": "After a sequence of write segments and the closing call, the object's content is exactly the concatenation of the segments, also when the file was pre-allocated or existed before with a larger size.", "quantifier": "all segment sequences", "why_tests_cant": "unbounded segment sequences", "anchors": ["mts/platform/storage/fsstorageplugin/fsstorageplugin.cpp: writeData, createFile"]}
{"id": "C51", "title": "Partial writes touch only their range", "statement": "SendPartialObject64 at offset o with n bytes changes exactly bytes [o,o+n) (extending with zeros if needed) and the reported object size afterwards is the file size.", "quantifier": "all contents, offsets, lengths", "why_tests_cant": "unbounded", "anchors": ["mts/platform/storage/fsstorageplugin/fsstorageplugin.cpp: writePartialData, truncateItem"]}
{"id": "C52", "title": "Reads are exact or refused", "statement": "readData returns exactly length bytes at the offset, or an error; it never returns short data as success.", "quantifier": "all contents, offsets, lengths", "why_tests_cant": "unbounded; wrap-around of offset+length", "anchors": ["mts/platform/storage/fsstorageplugin/fsstorageplugin.cpp: readData"]}
{"id": "C53", "title": "Copying a file copies all its bytes", "statement": "A successful object copy has the same bytes as the source for every size, and reports failure if any read or write failed.", "quantifier": "all file sizes, all failure points", "why_tests_cant": "sizes beyond 4 GiB; failure at any chunk", "anchors": ["mts/platform/storage/storageplugin.cpp: copyData"]}
{"id": "C54", "title": "Persistent ids survive restarts", "statement": "Storing and re-loading the persistent id table yields the same path to id mapping, and ids handed out after a restart differ from all stored ones.", "quantifier": "all tables, all path names", "why_tests_cant": "unbounded tables and path names", "anchors": ["mts/platform/storage/fsstorageplugin/fsstorageplugin.cpp: storePuoids, populatePuoids, requestNewPuoid, removeUnusedPuoids", "mts/platform/storage/storagefactory.cpp: getPuoid"]}
{"id": "C55", "title": "Object references stay valid", "statement": "GetObjectReferences returns only live objects, in the order set; SetObjectReferences either stores all references or none; stored references of non-playlist objects survive a restart.", "quantifier": "all reference tables and histories", "why_tests_cant": "unbounded", "anchors": ["mts/platform/storage/fsstorageplugin/fsstorageplugin.cpp: getReferences, setReferences, removeInvalidObjectReferences, storeObjectReferences, populateObjectReferences"]}
{"id": "C56", "title": "Timestamps survive", "statement": "Formatting a modification time for the initiator and parsing it back yields the same time, and every legal MTP timestamp form (local, Z, +hhmm) denotes the right time.", "quantifier": "all times, all legal timestamp strings", "why_tests_cant": "2^64 times", "anchors": ["mts/platform/storage/fsstorageplugin/fsstorageplugin.cpp: datetime_from_time_t, datetime_to_time_t"]}
{"id": "C57", "title": "Cached property values equal storage values", "statement": "A property value answered from the cache equals the value the storage would report now.", "quantifier": "all histories of reads, writes, renames, moves, deletions and events", "why_tests_cant": "unbounded histories", "anchors": ["mts/protocol/objectpropertycache.cpp: ObjectPropertyCache", "mts/platform/storage/storagefactory.cpp: getObjectPropertyValue, setObjectPropertyValue, moveObject"]}
{"id": "C58", "title": "The property cache is a faithful map", "statement": "Looking up a cached property returns the last value added for that object and property and not removed since; removing one object's properties affects no other object.", "quantifier": "all operation sequences", "why_tests_cant": "unbounded histories", "anchors": ["mts/protocol/objectpropertycache.cpp: add, remove, get, clear"]}
{"id": "C59", "title": "External renames keep handles, external moves out delete", "statement": "For every sequence of file system notifications, a move-from is paired with the move-to of the same cookie exactly once, and an unpaired move-from is treated as a deletion exactly once.", "quantifier": "all notification sequences", "why_tests_cant": "unbounded event sequences", "anchors": ["mts/platform/storage/fsstorageplugin/fsstorageplugin.cpp: inotifyEventSlot, cacheInotifyEvent, handleFSMove, handleFSDelete, handleFSCreate"]}
{"id": "C60", "title": "Requests are routed to the storage that owns the object", "statement": "Every object operation is performed on the storage that holds the handle and on no other; unknown handles and storage ids are refused; storage ids are distinct and start at 0x00010001.", "quantifier": "all storages and handles", "why_tests_cant": "all configurations", "anchors": ["mts/platform/storage/storagefactory.cpp: storageOfHandle, checkHandle, checkStorage, assignStorageId"]}
{"id": "C61", "title": "Excluded and escaping paths are never exported", "statement": "No object ever has an excluded path, and no symbolic link resolving outside the storage is exported.", "quantifier": "all file trees and configurations", "why_tests_cant": "unbounded trees", "anchors": ["mts/platform/storage/fsstorageplugin/fsstorageplugin.cpp: addToStorage, isSymlinkPolicy*, excludePath"]}
{"id": "C62", "title": "Exported storages have distinct folders and labels", "statement": "However the configuration files and mounted folders look, no folder is exported twice and no two exported storages carry the same label.", "quantifier": "all configurations", "why_tests_cant": "unbounded configurations", "anchors": ["mts/platform/storage/fsstorageplugin/fsstoragepluginfactory.cpp: create, makeLabelsUnique"]}
{"id": "C63", "title": "Every advertised property has a description", "statement": "For every object format category each property code listed as supported has a property description with that code, and device property descriptions exist for each device property. Which properties a format has follows from its kind: sound has artist and duration, pictures width and height, films both.", "quantifier": "all categories and codes", "why_tests_cant": "cross-table consistency over all codes", "anchors": ["mts/protocol/propertypod.cpp: getObjectPropsSupportedByType, getObjectPropDesc, getDevicePropDesc", "mts/platform/deviceinfo/mtpdeviceinfo.cpp: getFormatCodeCategory, m_imageFormatsTable, m_audioFormatsTable, m_videoFormatsTable, m_commonFormatsTable"]}
{"id": "C64", "title": "Thumbnails are requested once", "statement": "A picture's thumbnail is requested from the thumbnailer at most once, requests carry at most 128 pictures, and a ready notification is accepted only for requested pictures.", "quantifier": "all request/notification histories", "why_tests_cant": "unbounded histories", "anchors": ["mts/platform/storage/fsstorageplugin/thumbnailer.cpp: requestThumbnail, thumbnailDelayTimeout, slotReady"]}
{"id": "C65", "title": "Free space changes are announced exactly on percent changes", "statement": "A storage info event is sent exactly when the free space percentage differs from the one last announced.", "quantifier": "all free space histories", "why_tests_cant": "unbounded histories", "anchors": ["mts/platform/storage/fsstorageplugin/fsstorageplugin.cpp: sendStorageInfoChanged"]}
{"id": "C66", "title": "Setting a device property takes effect or is refused", "statement": "A device property write answered OK is visible in later reads of that property.", "quantifier": "all device properties and values", "why_tests_cant": "all values", "anchors": ["mts/protocol/mtpresponder.cpp: setDevicePropValueData, getDevicePropValueReq"]}
{"id": "C67", "title": "Received data is never left behind", "statement": "Whenever the main thread is idle, no notification is pending and the reader has announced everything it read, all received bytes have been handed to the responder.", "quantifier": "all schedules of the reader thread, the main thread and re-entrant notification delivery", "why_tests_cant": "depends on a particular interleaving of buffer wrap-around and nested event loops", "anchors": ["mts/transport/usb/mtptransporterusb.cpp: handleDataReady, processReceivedData", "mts/transport/usb/threadio.cpp: BulkReaderThread::getData, releaseData"]}
{"id": "C68", "title": "Only configured folders are exported, and all of them", "statement": "Only folders a configuration file asks for are exported; later configuration files do not change what earlier ones export; every folder asked for is exported unless its final label is already taken; when no two labels clash they are used unchanged.", "quantifier": "all configurations", "why_tests_cant": "unbounded configurations", "anchors": ["mts/platform/storage/fsstorageplugin/fsstoragepluginfactory.cpp: create, makeLabelsUnique"]}
{"id": "C69", "title": "Requested thumbnails are eventually fetched", "statement": "Once thumbnailing is enabled and no command is being processed, enough timer ticks ask the thumbnailer for every picture the storage requested and was not given yet; nothing is asked before enabling or while a command is processed.", "quantifier": "all request, timer, ready, suspend and resume histories", "why_tests_cant": "liveness over unbounded histories", "anchors": ["mts/platform/storage/fsstorageplugin/thumbnailer.cpp: requestThumbnail, thumbnailDelayTimeout, scheduleThumbnailing, suspendThumbnailing, resumeThumbnailing"]}
{"id": "C70", "title": "Object properties agree with the object info", "statement": "For every object, the values reported for StorageID, format, protection, size, association type, file name, dates, parent and persistent id are those of its object info (GetObjectInfo) and its identifier; the values reported for the children of a folder are those of each of its children, each child once; reading changes nothing; unknown objects are refused.", "quantifier": "all reachable storages, objects, property lists", "why_tests_cant": "all trees and histories", "anchors": ["mts/platform/storage/fsstorageplugin/fsstorageplugin.cpp: getObjectPropertyValueFromStorage, getObjectPropertyValue, getChildPropertyValues, getObjectInfo"]}
{"id": "C71", "title": "An accepted property value takes effect", "statement": "When SetObjectPropValue is answered OK, the storage reports the value that was set from then on.", "quantifier": "all objects, properties, values, outcomes of system calls", "why_tests_cant": "fault injection in every state", "anchors": ["mts/platform/storage/fsstorageplugin/fsstorageplugin.cpp: setObjectPropertyValue"]}
{"id": "C72", "title": "Host requests and bus state changes on the control endpoint are passed on in order and each request is answered once", "statement": "For every sequence of bus events (bind, enable, disable, suspend, resume) and class requests (Cancel, GetDeviceStatus, Reset) on the control endpoint: the responder is told of each state change and each request exactly once and in order; every request the host makes is answered once: status data, an acknowledgement or a stall; no sequence of requests crashes the thread.", "quantifier": "all sequences of control requests, data stages and bus events, all interleavings with the status being set", "why_tests_cant": "any order and content of host traffic", "anchors": ["mts/transport/usb/threadio.cpp: ControlReaderThread::execute, handleEvent, setupRequest, sendStatus"]}
{"id": "C73", "title": "The device status answered is the one last set", "statement": "GetDeviceStatus on the control endpoint is answered with the status the responder set last.", "quantifier": "all interleavings of status changes and requests", "why_tests_cant": "all schedules of two threads", "anchors": ["mts/transport/usb/threadio.cpp: ControlReaderThread::setStatus, sendStatus"]}
{"id": "C74", "title": "Suspending and resuming the bus loses nothing received afterwards", "statement": "After the receiving side is stopped (suspend, reset, cancel) and started again, everything the host sends afterwards is delivered, once and in order, and nothing that was overwritten or belongs to before is delivered in its place.", "quantifier": "all interleavings of stop/start with the reader thread, also while it is inside read(2)", "why_tests_cant": "races between two threads at every point", "anchors": ["mts/transport/usb/threadio.cpp: BulkReaderThread::execute, getData, releaseData, resetData", "mts/transport/usb/mtptransporterusb.cpp: stopRead, startRead"]}
{"id": "C75", "title": "What the program can do is advertised, once, whatever the configuration file says", "statement": "Every built-in operation and object format is advertised for every configuration file, readable or not; a file that is accepted adds what it lists; nothing is advertised twice unless the file lists it twice.", "quantifier": "all configuration files", "why_tests_cant": "arbitrary, including broken, files", "anchors": ["mts/platform/deviceinfo/mtpdeviceinfo.cpp: MtpDeviceInfo::MtpDeviceInfo", "mts/platform/deviceinfo/xmlhandler.cpp: startElement, characters, endElement"]}
{"id": "C76", "title": "Names given to the device survive a restart", "statement": "The friendly name and the sync partner reported are the ones the host set last, also after any number of restarts; setting them changes nothing else the device reports.", "quantifier": "all histories of renamings and restarts, all names, all configuration files of the installed shape", "why_tests_cant": "unbounded histories", "anchors": ["mts/platform/deviceinfo/mtpdeviceinfo.cpp: setDeviceFriendlyName, setSyncPartner, modifyDeviceInfoXml", "mts/platform/deviceinfo/xmlhandler.cpp: characters"]}
{"id": "C77", "title": "The battery level reported and announced is the current one", "statement": "The battery level property always has the level measured last, the host is told of every change and of nothing else, and the values are ones the property's description permits.", "quantifier": "all sequences of measurements", "why_tests_cant": "unbounded histories", "anchors": ["mts/platform/deviceinfo/mtpdeviceinfo.cpp: setBatteryLevel, batteryLevelForm", "mts/platform/deviceinfo/deviceinfoprovider.cpp: onBatteryPercentageChanged"]}
{"id": "C78", "title": "No file system notification is lost, repeated or misread", "statement": "Every notification the kernel queues on the watch descriptor reaches the storage once, in order, with the watch, kind, cookie and name it was queued with, however many are read at once and whatever the read buffer held before.", "quantifier": "all queues of notifications, all names, all buffer contents", "why_tests_cant": "all packings of records into reads", "anchors": ["mts/platform/storage/fsstorageplugin/fsinotify.cpp: inotifyEventSlot"]}
{"id": "C79", "title": "The format a file is given follows from its extension and is one the device advertises", "statement": "A file's object format depends only on what follows the last dot of its path, in either letter case; unknown extensions give Undefined and folders Association; every format so given is in the advertised list. The usual extensions give the formats documented for them. What a scan or a notification finds on the disk is reported with that format and with its size.", "quantifier": "all paths, all configuration files", "why_tests_cant": "all names and configurations", "anchors": ["mts/platform/storage/fsstorageplugin/fsstorageplugin.cpp: getObjectFormatByExtension, buildSupportedFormatsList", "mts/platform/deviceinfo/mtpdeviceinfo.cpp: MtpDeviceInfo::MtpDeviceInfo", "mts/common/mtptypes.h: MTP_OBF_FORMAT_MP3"]}
{"id": "C80", "title": "Queries and management operations ask the storage what the host asked and relay its answer", "statement": "For GetDeviceInfo, GetStorageIDs, GetStorageInfo, GetNumObjects, GetObjectHandles, GetObjectInfo, DeleteObject, MoveObject, CopyObject, GetDevicePropDesc, GetDevicePropValue, GetObjectPropsSupported, GetObjectPropDesc and GetObjectPropValue: the storage and device are asked, in order and with the host's own arguments, exactly what the operation means (checks first; a refused check ends the operation), the data phase carries exactly what they answered (handles in increasing order), and one response carries the code of the step that decided; the queries change nothing.", "quantifier": "all parameters, all answers of storage and device, all histories", "why_tests_cant": "all combinations of parameters and answers", "anchors": ["mts/protocol/mtpresponder.cpp: getStorageIDReq, getStorageInfoReq, getNumObjectsReq, getObjectHandlesReq, getObjectInfoReq, deleteObjectReq, moveObjectReq, copyObjectReq, getDevicePropDescReq, getDevicePropValueReq, getObjPropsSupportedReq, getObjPropDescReq, getObjPropValueReq"]}
{"id": "C81", "title": "Changes made by other programs are announced to the host, exactly; the host's own are not", "statement": "Whenever a file system notification is processed, the host is sent ObjectAdded exactly for the objects that newly appear, ObjectRemoved only for, and for all, objects that disappear, and ObjectInfoChanged only for objects known before and after, each at most once and with the object's handle; a rewritten file's information is read again and announced exactly when it differs. The host's own operations announce nothing.", "quantifier": "all storage histories, all notifications, all disk contents", "why_tests_cant": "depends on the whole tree of objects and on the history of notifications", "anchors": ["mts/platform/storage/fsstorageplugin/fsstorageplugin.cpp: inotifyEventSlot, handleFSDelete, handleFSCreate, handleFSMove, handleFSModify, addToStorage, deleteItemHelper, removeFromStorage"]}
{"id": "C82", "title": "Reading an object delivers the bytes of its file", "statement": "With the responder working on the file system storage: GetObject, GetPartialObject and GetPartialObject64 of an object send exactly the bytes (or exactly the requested window of them) that the object's file holds, over one data phase, followed by OK with the right count; an offset beyond the end is refused without data; no object and no file is changed by reading.", "quantifier": "all storage histories, all objects and contents, all offsets and lengths, all responder states, whatever the rest of the device does", "why_tests_cant": "ranges over all histories of the storage and all file contents, sizes and windows", "anchors": ["mts/protocol/mtpresponder.cpp: getObjectReq, getPartialObjectReq, sendObjectSegmented", "mts/platform/storage/storagefactory.cpp: readData", "mts/platform/storage/fsstorageplugin/fsstorageplugin.cpp: readData"]}
{"id": "C83", "title": "Sending an object stores exactly the bytes sent, in the file announced", "statement": "SendObjectInfo, its dataset cut into any packets, creates (or reuses) the object of the requested name in the requested folder, answers with its storage, parent and handle, and leaves every other object as it was; a refused one is answered with the refusal and announces nothing. SendObject, its data cut into any packets, then makes that object's file hold exactly the bytes sent, answers OK, and touches no other file and no object.", "quantifier": "all storage histories, all datasets, all contents, all packetisations", "why_tests_cant": "ranges over all cuttings into packets and all histories", "anchors": ["mts/protocol/mtpresponder.cpp: sendObjectInfoData, sendObjectData", "mts/platform/storage/storagefactory.cpp: addItem, writeData", "mts/platform/storage/fsstorageplugin/fsstorageplugin.cpp: addItem, writeData"]}
{"id": "C84", "title": "What is stored is what is read back", "statement": "SendObjectInfo, SendObject and then GetObject of the handle the device chose return exactly the bytes sent, for every content, name and packetisation; the object is listed in the requested folder and every other object is as before.", "quantifier": "all storage histories, all contents up to 4 GiB, all packetisations, all responder states", "why_tests_cant": "ranges over all contents, cuttings into packets and histories", "anchors": ["mts/protocol/mtpresponder.cpp: sendObjectInfoData, sendObjectData, getObjectReq", "mts/platform/storage/fsstorageplugin/fsstorageplugin.cpp: addItem, writeData, readData"]}
{"id": "C85", "title": "Listings and object information tell what is in the storage", "statement": "With the responder working on the file system storage: GetObjectHandles sends exactly the handles of the objects meant (of the format asked for, or any; everywhere, at the top level, or directly in the given folder), each once and in increasing order; GetNumObjects answers their number; GetObjectInfo sends exactly the object's recorded dataset; folders that are none, and unknown handles, are refused without data; nothing is changed.", "quantifier": "all storage histories, all parameters, all responder states, whatever the rest of the device does", "why_tests_cant": "ranges over all histories of the storage and all requests", "anchors": ["mts/protocol/mtpresponder.cpp: getObjectHandlesReq, getNumObjectsReq, getObjectInfoReq", "mts/platform/storage/storagefactory.cpp: getObjectHandles, getObjectInfo", "mts/platform/storage/fsstorageplugin/fsstorageplugin.cpp: getObjectHandles, getObjectInfo"]}
{"id": "C86", "title": "Delete, move and copy requests do to the files what they are for, and nothing else", "statement": "With the responder working on the file system storage: DeleteObject removes the object with everything in it, from the object list and the disk, and nothing outside it; MoveObject gives the object and everything in it the new place, keeping handles and contents, or changes nothing; CopyObject creates a copy of the object and everything in it with equal contents and new handles, leaves everything outside the destination alone even if it fails, and answers the copy's handle; a copy for which the space runs out is deleted again; unknown objects or folders are refused and nothing changes; the one response carries the storage's answer.", "quantifier": "all storage histories, all objects and folders, all responder states, all system call outcomes", "why_tests_cant": "ranges over all histories and trees of objects", "anchors": ["mts/protocol/mtpresponder.cpp: deleteObjectReq, moveObjectReq, copyObjectReq", "mts/platform/storage/storagefactory.cpp: deleteItem, moveObject, copyObject", "mts/platform/storage/fsstorageplugin/fsstorageplugin.cpp: deleteItem, moveObject, copyObject"]}
{"id": "C87", "title": "In-place editing changes exactly the bytes sent, only of the object being edited", "statement": "With the responder working on the file system storage: BeginEditObject is granted exactly for existing objects; while an object is being edited SendPartialObject64, with its data cut into packets in any way, and TruncateObject64 are carried out with the full 64 bit offset or size: after an OK response the file is the old one with the bytes written at the offset (a gap filled with zeros), or cut or extended with zeros to the size, its reported size is the file's, and no other file or object has changed; they succeed if the file is there and the disk works; for any other object, or when nothing is being edited, they and EndEditObject are refused with the right code and nothing at all changes; EndEditObject ends the edit.", "quantifier": "all storage histories, all objects, offsets, contents and packetizations, all responder states, all system call outcomes", "why_tests_cant": "ranges over all histories, offsets and ways of cutting the data into packets", "anchors": ["mts/protocol/mtpresponder.cpp: beginEditObjectReq, endEditObjectReq, truncateObject64Req, sendPartialObject64Req, sendPartialObject64Data", "mts/platform/storage/storagefactory.cpp: writePartialData, truncateItem", "mts/platform/storage/fsstorageplugin/fsstorageplugin.cpp: writePartialData, truncateItem"]}
{"id": "C89", "title": "Every storage operation comes to an end", "statement": "From every state the storage can get into, adding, deleting (one, all, by format), moving, renaming, copying, reading, writing, truncating, listing, and handling of any file system notification come to an end and leave the storage in a defined state that does not depend on any step budget; so does the enumeration of any directory tree at start-up.", "quantifier": "all storage histories, all operations and arguments, all directory trees, all system call outcomes", "why_tests_cant": "non-termination depends on the shape of the object graph and the directory tree; tests see finitely many and cannot observe that something never ends", "anchors": ["mts/platform/storage/fsstorageplugin/fsstorageplugin.cpp: addToStorage, deleteItemHelper, copyObject, moveObject, adjustMovedItemsPath, handleFSDelete, handleFSCreate, handleFSMove, enumerateStorage"]}
{"id": "C88", "title": "SetObjectPropValue writes exactly the file name, and only of objects and properties that allow it", "statement": "With the responder working on the file system storage, SetObjectPropValue with its value cut into packets in any way is answered once: for an unknown object InvalidObjectHandle; for a property the object's kind does not have, the property tables' error; for a read only property AccessDenied; in all these cases nothing changes. A new file name is refused with Invalid_ObjectProp_Value exactly if it has a forbidden character, consists of dots or names another known object of the folder; otherwise the answer is OK, the object is renamed on disk and in the storage with handle, persistent id, contents and everything inside kept, and nothing else changes, unless the disk fails or the name is empty or taken on the disk. Other writable properties change nothing. In the device's tables the file name is a writable string and format, size, parent, storage, dates and persistent id are read only for every kind of object.", "quantifier": "all storage histories, all objects, property codes, values and packetizations, all system call outcomes", "why_tests_cant": "ranges over all histories, property values and ways of cutting the data into packets", "anchors": ["mts/protocol/mtpresponder.cpp: setObjPropValueReq, setObjPropValueData", "mts/platform/storage/storagefactory.cpp: setObjectPropertyValue", "mts/platform/storage/fsstorageplugin/fsstorageplugin.cpp: setObjectPropertyValue, isFileNameValid", "mts/protocol/propertypod.cpp: getObjectPropDesc"]}
{"id": "C90", "title": "GetThumb sends the thumbnail the storage has", "statement": "A GetThumb request in a session puts one question to the storage, for the sample data of the object the host named. If the storage answers, the data phase is one container holding exactly the bytes it answered with, followed by one OK response; nothing is changed. If it refuses, one response with its code is sent.", "quantifier": "all responder states, objects, storage behaviours and thumbnail contents", "why_tests_cant": "ranges over all states, storage behaviours and byte strings", "anchors": ["mts/protocol/mtpresponder.cpp: getThumbReq", "mts/protocol/propertypod.cpp: getObjectPropDesc"]}
{"id": "C91", "title": "SendObjectPropList announces exactly the object its property list describes", "statement": "SendObjectPropList, with its list cut into packets in any way, is answered once. The storage and the folder are checked, a size of 4 GiB or more is refused with Object_Too_Large with nothing added; an element about another object or with a property its format does not have is refused with Invalid_Dataset and its place in the list; a list without a file name is refused; otherwise the storage is asked once, to add the object with the last file name of the list and the announced format, size, storage and folder. If it does, the response names storage, folder and handle and the content that follows is that object's; otherwise its code and the place of the file name are the response. After a refusal SendObject is refused.", "quantifier": "all responder states, all property lists and values, packetizations, storage behaviours", "why_tests_cant": "ranges over all property lists, cuts into packets and storage behaviours", "anchors": ["mts/protocol/mtpresponder.cpp: sendObjectPropListReq, sendObjectPropListData, sendObjectReq"]}
{"id": "C92", "title": "Requests survive any cutting into USB packets that leaves commands and headers whole", "statement": "Whatever the host's USB driver makes of the stream of containers - several commands in one packet, a command and the start of its data together, data spread over many packets - as long as no packet ends inside a command or inside the length field of a data container (for object content: its header), each command is answered once, in order and with its transaction number; a request with data has exactly the effect of its data arriving in one piece; and the content sent for an announced object is what its file then holds, and content sent for the middle of an object being edited is found there.", "quantifier": "all lists of requests, all contents, all cuts into packets, all responder and storage states", "why_tests_cant": "ranges over all streams and all ways to cut them", "anchors": ["mts/transport/usb/mtptransporterusb.cpp: processReceivedData", "mts/protocol/mtpresponder.cpp: receiveContainer, commandHandler, dataHandler, fetchObjectSize"]}
{"id": "C93", "title": "An upload that fails half-way affects nothing but itself", "statement": "When writing an object's content fails during SendObject (disk full, I/O error), the request is answered exactly once with the error, the content still to come is discarded without any other effect, and the requests that follow are answered as usual.", "quantifier": "all contents, all cuts into packets, all failing positions and error codes, all following requests, all responder states", "why_tests_cant": "ranges over all contents (which bytes are still in flight decides what happens), cuts and failing positions", "anchors": ["mts/transport/usb/mtptransporterusb.cpp: processReceivedData, reset", "mts/protocol/mtpresponder.cpp: sendObjectData, receiveContainer, dataHandler"]}
{"id": "C94", "title": "Deleting by format, or everything, removes exactly what was asked", "statement": "DeleteObject(0xFFFFFFFF, format) on a disk that matches what is shown removes every object of that format (all objects if the format is 0) and no other, leaves the content of all others unchanged, and answers OK exactly when nothing that was asked for is left.", "quantifier": "all object trees, all orders in which the object table is walked, all formats", "why_tests_cant": "the result ranges over all trees and depends on the order of a hash table", "anchors": ["mts/platform/storage/fsstorageplugin/fsstorageplugin.cpp: deleteItem, deleteItemHelper, removeFromStorage", "mts/platform/storage/storagefactory.cpp: deleteItem", "mts/protocol/mtpresponder.cpp: deleteObjectReq"]}
{"id": "C95", "title": "A download whose disk fails is never passed off as complete", "statement": "If reading a file fails at any point while the initiator downloads it (GetObject, GetPartialObject, GetPartialObject64), the initiator never receives OK: it gets the error the disk reported if no data was sent yet, and otherwise a correct beginning of the content that is recognisably incomplete; every later request is answered again. OK means that exactly the bytes asked for were sent. The storage is unchanged.", "quantifier": "all files, offsets, lengths, failing positions, storage states, responder states", "why_tests_cant": "the failing read may be any of the reads a transfer of any length consists of", "anchors": ["mts/protocol/mtpresponder.cpp: getObjectCommon, sendObjectSegmented", "mts/platform/storage/fsstorageplugin/fsstorageplugin.cpp: readData"]}
{"id": "C96", "title": "GetObjectPropValue answers with the object's own value", "statement": "GetObjectPropValue of any property that is part of the object's information (storage, format, protection, size, association type, name, dates, parent, persistent identifier) sends one data container with exactly the value the object has at that moment, in the type the property description advertises, and OK. Unknown objects and properties not supported for the object's format are refused with the right code and without data. Nothing in the storage changes.", "quantifier": "all storage states, objects, properties, property tables, transaction ids", "why_tests_cant": "ranges over every history of the storage and every object and property", "anchors": ["mts/protocol/mtpresponder.cpp: getObjPropValueReq", "mts/platform/storage/storagefactory.cpp: getObjectPropertyValue", "mts/platform/storage/fsstorageplugin/fsstorageplugin.cpp: getObjectPropertyValueFromStorage"]}
{"id": "C97", "title": "Every folder object keeps being watched", "statement": "The server hears of what other programs do in an exported folder through a watch on it. After the start every folder object is watched, and no operation or notification, in whatever order they come, leaves a folder that stays in the storage without its watch or adds a folder that is not watched.", "quantifier": "all storage contents, histories of operations and notifications, system call outcomes and changes by other programs", "why_tests_cant": "ranges over all histories; a lost watch shows only later, when another program changes something in that folder", "anchors": ["mts/platform/storage/fsstorageplugin/fsstorageplugin.cpp: addWatchDescriptor, removeWatchDescriptor, addWatchDescriptorRecursively, removeWatchDescriptorRecursively, addToStorage, moveObject, copyObject, setObjectPropertyValue, handleFSMove, adjustMovedItemsPath"]}
{"id": "C98", "title": "An object announced by a property list is stored and can be read back", "statement": "SendObjectPropList, handled by the responder and the file system storage together, creates exactly the object the property list describes (last file name of the list, the announced format and size, in the folder asked for) or nothing at all: if the storage, the folder, the size or the list is not acceptable, no object and no file changes and the response says which of them it was. The content sent next, of any size and cut into packets in any way, becomes exactly the content of that object's file, no other file or object being touched; reading the object returns the bytes sent.", "quantifier": "all storage contents reachable by any history, property lists, packetisations, contents, object formats, parents and transaction ids", "why_tests_cant": "ranges over all histories of the storage, all lists and all ways to cut the data into packets", "anchors": ["mts/protocol/mtpresponder.cpp: sendObjectPropListReq, sendObjectPropListData, sendObjectData", "mts/platform/storage/storagefactory.cpp: addItem, checkHandle, checkStorage, writeData, setObjectPropertyValue", "mts/platform/storage/fsstorageplugin/fsstorageplugin.cpp: addItem, writeData, setObjectPropertyValue"]}
{"id": "C99", "title": "A description's values obey the description's own restriction", "statement": "The default value in every object property description, and the default and current value in every device property description, is one that the same description's form (range or list of values) permits. Exactly: the object property defaults are permitted when the property is not the sample rate, the thumbnail format or the video codec and the device's own limits admit zero; the current battery level is permitted when it is a multiple of ten up to a hundred.", "quantifier": "all device configurations, format categories, property codes and battery levels", "why_tests_cant": "ranges over all device configurations and current values", "anchors": ["mts/protocol/propertypod.cpp: getObjectPropDesc, getDevicePropDesc, populateEnumDesc, populateTechObjPropDesc", "mts/platform/deviceinfo/mtpdeviceinfo.cpp: batteryLevelForm, batteryLevel"]}
