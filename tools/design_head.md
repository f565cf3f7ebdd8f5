# Formal model of buteo-mtp: design

Target: `/repo` (sailfishos/buteo-mtp, pinned commit). The code is read as text; nothing
of it was built or run. Every Coq definition of the model carries a comment with the file
and lines it models and with what it simplifies.

## 1. Layout of rocq/theories

| files | contents |
|------|----------|
| Base, AList | words (u8..u64 with wrap-around), bytes, `outcome` = `Ret` / `UB` / `Abort`, association lists |
| Wire, WireSpec, WireProofs | MTPContainer, MTPTxContainer, MTPRxContainer, MtpInt128, object info, property values; the specification of the wire format is separate (WireSpec) |
| Ring, RingProofs, RingStop | BulkReaderThread's circular buffer shared by two threads, with every interleaving |
| Framing, BulkWriter, Events, Control | processReceivedData; BulkWriterThread; InterruptWriterThread with the event part of MTPTransporterUSB; ControlReaderThread on the control endpoint |
| PropCache, Pod, Factory | ObjectPropertyCache; PropertyPod tables; StorageFactory (handles, ids, routing) |
| Responder | MTPResponder: all operations, sessions, data phases, segmented sender, suspend/resume, deferred commands, events |
| RSpec, RLogic, ROne…RMisc, RColl, RPropList, RGetList | vocabulary and program logic for the responder |
| FS, FSSpec, FSReach, FS*… , FSProps, FSPlugin | FSStoragePlugin on a model file system with failing system calls, foreign changes and inotify notifications |
| Persist, Refs, FreeSpace, DateTime, Labels, Thumbs, Coherence, DevInfo, Inotify | id file, object references, free space announcements, timestamps, storage configuration, thumbnailer, cache coherence, device info, notification parser |
| *Proofs | lemmas |
| P_*.v | only the property theorems: statement, one-line proof from a lemma, `Print Assumptions`, and concrete cases (`ex_…`) meeting the hypotheses |

The environment (USB endpoint results, system call results, behaviour of the storage as
seen from the responder, thread schedule, kernel notifications) is a parameter or an
inductive relation, so theorems quantify over all its behaviours; nothing is bounded.

Naming: `Cnn_name` proves property Cnn, `Cnn_name_partial` proves a part of it (the full
English statement stays in properties.jsonl; what is missing is in MANIFEST.json),
`Cnn_name_refuted` proves that the code *violates* the statement, by a concrete history of
the model. Refutations are listed because a partial theorem with an explicit counterexample
for the rest settles the property. tools/manifest.py collects the names.

## 2. Trusted base

* The kernel of Coq 8.16.1 (re-checked by coqchk in vcheck). `vm_compute` is used in
  examples and refutations; coqchk re-checks those with the kernel's own reduction.
* Every theorem named in MANIFEST.json is followed by `Print Assumptions`, and each prints
  `Closed under the global context`: no axiom at all is used. vcheck additionally lists seven constants
  of `Coq.ssr.ssrunder` (`Under_rel.*`): they belong to Coq's standard library
  and come with loading it; no theorem depends on them.
* No axioms, no section-less Variable/Hypothesis, no Admitted, no functors, no module
  types, no kernel check switched off, no plugin.
* The model itself: that the definitions say what the C++ says. Each has its source lines;
  section 5 lists what is left out. Errors here are what the seeded wrong programs
  (`seeded/LOG.jsonl`) and the concrete examples are meant to catch.
* The specification vocabulary: WireSpec, RSpec, FSSpec and the small definitions at the
  head of the P_ files.

## 3. How the model abstracts

* **C++ undefined behaviour** (out-of-bounds access, null or dangling pointers, signed
  overflow where it matters) is the outcome `UB`; theorems that say something about a
  run either exclude it by hypothesis, prove it absent, or exhibit it in a refutation.
* **Threads**: small-step relations over atomic actions between lock operations or system
  calls (Ring, Events, RingStop). Qt's queued signals are explicit counters or queues.
* **Storage seen from the responder**: an arbitrary function of the whole history of calls
  (`env : list (act*ans) -> act -> ans`), so theorems hold for any plugin and any
  interleaved transport failures. Nested event loops (`processEvents` inside sendData)
  appear as signals delivered together with the answer (`a_async`).
* **File system** (FS): a finite map from paths to files/folders/links; system calls fail by
  an oracle indexed by a clock, foreign changes are arbitrary replacements of the disk
  between operations (`OWorld`), inotify notifications are arbitrary subject to the
  kernel's contract on cookies (stated in FSSpec/P_FS4).
* **Qt**: QHash/QMap/QVector/QString as association lists and lists of 16-bit units; iteration order of
  a hash is a parameter where it can be observed.

