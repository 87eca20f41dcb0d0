# Formal model of pyavb

Source: `/repo` (markreidvfx/pyavb at the pinned commit). Prover: Coq 8.16.1, sources in `rocq/theories`.

## 1. How the code is modelled

The model is a set of total Gallina functions, one for each Python function, written branch by branch.

* **Exceptions are values.** `result A := Ok a | Err e`, with one constructor per Python exception the code can raise
  (`StructError` for `struct.error`, `AssertionErr`, `ValueErr`, ...).
* **Bytes** are `Z` in 0..255, byte strings are `list Z`. Python integers are `Z` (unbounded); a width is enforced only where
  the code calls `struct.pack`/`unpack`.
* **Readers** are functions `bytes -> result (A * bytes)`: the argument is what is left of the `BytesIO`, the result holds
  what is left afterwards. `f.read(n)` returns a short string at the end of the data, as in Python; `unpack` of a short
  string is `StructError`.
* **Writers** produce `result bytes`; each object is written to a fresh buffer by the code, so an error discards it.
* **Contexts.** An input context holds the byte order and the number of table entries used by the reference check; an
  output context holds the byte order and the map from instance ids to chunk numbers (`ref_mapping`).
* **Objects** are Coq records, one per class, with the property names of the code as field names; an inherited class is a
  field holding the parent's record. A property that may be absent (`hasattr`) is an `option`. References are integers:
  an instance id in memory, a chunk number in a file, 0 for None (`AVBObjectRef.value`, `write_object_ref`).
  Properties the writer requires unconditionally are plain fields, so an object on which such a property was never set
  (Python: `AttributeError` at write) is not representable, except where a comment says that the option is kept.
* **Loops** over a count are structural recursion on the count; the optional-section loop (`iter_ext`) takes fuel equal to the
  number of bytes left plus one, and a theorem shows the fuel never runs out.
* **Text** is a list of code points; Mac Roman is the 256-entry table, UTF-8 is modelled in full.
* **Doubles** (`read_double`) are their 64-bit patterns. Decimal floats (`exp10`) are modelled with `SpecFloat` arithmetic
  (53 bits, emax 1024, round to nearest even).
* **Time** is the Unix time stamp; the local time zone is a parameter of the date model.

### Layout

Models (definitions only):

| file | models |
|---|---|
| `Base.v` | results, readers, writers, loops |
| `IoCtx.v` | `ioctx.py` integers, tags, `iter_ext`, bool, references, rect, colour |
| `Text.v` | `ioctx.py` strings, Mac Roman, UTF-8 |
| `Exp10.v` | `ioctx.py` decimal floats |
| `MobId.v` | `mobid.py`, `uuid.UUID` as used, `utils.py` integer helpers |
| `Attributes.v`, `Components.v`, `TrackGroups.v`, `Misc.v`, `Essence.v`, `BinModel.v` | the readers and writers of the classes of the files of the same names |
| `Objects.v` | the class registry: the sum of all classes, `read`/`write` by class code, the references of an object in the order of `walk_references` |
| `FileModel.v` | `file.py`: opening, `read_object`, `write_header`, `write` as a list of file operations, and `core.walk_references` |
| `Opened.v` | an opened file as a document that is walked and saved; the order of `walk_references` over objects that were read |
| `Edited.v` | a document under edits: `object_cache`, `modified_objects`, `read_object` with the cache, `add_modified`, collection, and what a save then sees |
| `SaveOver.v` | `write` and `walk_references` in turns, with loads that may depend on what has been written; a document saved over its own file |
| `Closing.v` | `close` and the end of a `with` block: `read_object`, edits and saves afterwards |
| `Lookups.v` | `SourceClip.mob` and `track`, `Selector.components`, `iter_class_ids`, `AVBChunk.hex`; how a reference leads to an object is a parameter |
| `Made.v` | `from_name` with the constructors of the complete classes (the seven timed components and groups, `Composition`, `Bin`, `BinFirst`, `BinViewSetting`, the plain lists, the first media descriptors, `URLLocator`), `setup_empty`, `add_mob`; clock, uid and mob ID are arguments |
| `Dates.v` | time zone, `strftime` of the header |
| `Timeline.v` | `Sequence` and `ParamClip` queries, `lerp`, `mc_trapezoidal_integrate`, `integrate_iter`, `integrate` |
| `Bezier.v` | `interpolation.py` Bezier and spline curves and `value_at`, over real numbers |
| `Names.v` | media kinds, mob types, usages |
| `Mobs.v` | `Bin` lookup and listing, `dependant_mobs` |
| `RefList.v`, `Slices.v` | `AVBRefList`; with slices |
| `DocModel.v` | factory, object cache, modified set, reading flag |
| `Copy.v` | `copy` of objects, reference lists and attributes on a heap |
| `Params.v` | `ParameterItem.parameter_name` and the table `parameter_uuids.py` |
| `PropDefs.v` | `AVBPropertyDef` tables of all classes, `register_class`, `__setattr__`, `__getattr__`, `get` |
| `RefInfo.v` | `AVBObjectRef`: `value`, `class_id`, `valid` |
| `Ext.v`, `ExtDoc.v` | `_ext_core.cpp`, `_ext.pyx`, use of them in `file.py` |

Specifications, independent of the model's helpers: `Storable.v`, `Fits.v`, `ObjSpec.v`, `Saved.v`, `FileSpec.v`, `TimelineSpec.v`,
`CurveSpec.v`, `BezierSpec.v`, `IntegrateSpec.v`, `NamesSpec.v`, `DateSpec.v`, `MobsSpec.v`, `RefListSpec.v`, `DocSpec.v`, `CopySpec.v`, `ExtSpec.v`,
`ResaveSpec.v`, `EditSpec.v`, `LookupSpec.v`, `ChainSpec.v`, `ParamSpec.v`, `MovedSpec.v`, `SliceSpec.v`, `ClosingSpec.v`, `PropDefSpec.v`.
Sample objects and documents used by the examples: `Samples.v`, `SampleDocs.v`, `ResaveSamples.v`.

Lemmas: `RoundTrip.v` and `ClassTac.v` (round-trip combinators and their tactics), the `*Proofs.v` files, `ObjTheory.v`, `CopyTheory.v`,
`CopyTree.v`, `CopyEnds.v`, `ExtSim.v`, `ExtStrict.v`, `ExtRead.v`, `ExtWritten.v`, `ExtUnique.v`, `ExtDocProofs.v`, `GotClasses.v` (what each reader returns, for any bytes),
`ResaveTheory.v`, `MadeTheory.v`, `BothOrders.v`, `ChainTheory.v`, `SaveOverProofs.v`, `ParamProofs.v`, `RefInfoProofs.v`, `MovedProofs.v`, `SliceProofs.v`, `ClosingProofs.v`, `PropDefProofs.v`.

Theorems: `props/*.v`, nothing but the property theorems, their examples and `Print Assumptions`.

## 2. Plan for each property

| id | what is modelled | proof |
|---|---|---|
| C01 | `pack`/`unpack` of each width and order | arithmetic on base-256 digits, induction on the width |
| C02 | `read_string`/`write_string` with the Mac Roman table | table inverse by a finite check over 256 bytes, lifted to lists by induction; refutation for 65535 bytes |
| C03 | UTF-8 encoder and decoder | decoder inverts encoder per code point, induction on the text |
| C04 | exp10 writer and reader over SpecFloat | integer-valued floats: the loop stops at once; exactness of int/float conversion |
| C05 | the same | loop bound by induction; value bound by a real-number argument (Flocq); fixed points of common rates by computation over the finite list |
| C06 | `UUID` fields, both encodings | bytes algebra |
| C07 | `read_mob_id`/`write_mob_id` | round-trip combinator lemmas |
| C08 | `MobID` int, comparison, hash as a function of the integer | base-256 injectivity |
| C09 | `urn` getter and setter on hex text | parse of print; refutation by witness |
| C10 | field getters and setters as slices of a 32-byte list | list-update algebra |
| C11–C20 | `read` and `write` of each class | for each class: `write o = Ok bytes` and the text/float/blob side conditions imply `read (bytes ++ rest) = Ok (o, rest)`, by composition of round-trip lemmas, induction for lists |
| C21 | the same readers and writers at both byte orders | two instances of the round trip; equal lengths by induction over the writer; whole saves step by step, exceptions included |
| C22 | all class readers | every reader is *local*: what it returns does not depend on bytes after those it consumed; so an accepted strict prefix contradicts the round trip |
| C23 | `read_object`'s leftover check | round trip with a non-empty rest |
| C24 | table scan of `AVBFile.__init__`, `read_chunk`, `chunks` | induction on the number of chunks |
| C25 | `AVBFile.write` and `AVBFile.__init__` | invariant of the write loop: the map is the position in the post-order; round trip of each chunk; the walk completes when a rank that drops along references stays below the recursion limit |
| C26 | `walk_references`, `write` | invariant over the post-order walk with duplicates skipped |
| C27 | `ref_mapping` | injectivity of the map |
| C28 | the sequence of file operations of `write` | case analysis over prefixes of the operation list |
| C29 | `write` as a function of document and time | state-passing model of the attributes `write` changes |
| C30 | walk with fuel | on a cycle no fuel suffices; on an acyclic graph a bound exists (induction on rank) |
| C31 | `from_name`, id counter | invariant over histories |
| C32 | modified set | invariant over histories |
| C33 | `AVBRefList` operations | refinement to list operations; refutation for the three no-ops |
| C34, C35 | `Sequence` queries | induction over the components |
| C36 | `nearest_index` over times ordered as in the code | loop invariant of the binary search |
| C37 | `value_at` over IEEE doubles; Bezier and cubic are a parameter here (C55, C56) | case analysis after C36; rounding of the linear case by Flocq |
| C38 | `Bin` item list and lazy dict | invariant over histories |
| C39 | `dependant_mobs` | invariant of the depth-first walk |
| C40, C41 | heap model of `copy` | induction on rank; refutation of independence for blobs |
| C42 | name tables | finite check lifted, plus injectivity of decimal printing |
| C43 | the C++ readers as state machines over the bytes (Ext.v), throwing included | simulation of each standard reader by the accelerated one, for all bytes; written chunks through the round-trip lemmas |
| C44 | `read_object_ref` check | invariant over every reader |
| C45 | `write_header` and header part of `__init__` | round trip |
| C46 | zone as offset function | algebra; witness zone |
| C47 | `integrate` over any arithmetic, doubles among them | induction on the frames; exactness of half frames below 2^53 by Flocq |
| C48 | `octx` comparison | case analysis in the write loop |
| C49 | helper functions | induction |
| C50 | follows from the round trips | injectivity |
| C51 | the exp10 writer and reader, iterated | C04 and C05; a witness that a second save moves the value again |
| C52 | the calendar of `strftime` | civil-from-days against a count of days from a specification by leap years |
| C53 | the object cache (weak), the modified set and in-place changes | invariant over histories; witness of a lost change |
| C54 | class-level default values | heap model of `__init__`; witness of sharing |
| C55 | the cubic solver and the handles, over real numbers | Cardano's formulas proved sound and complete in each case, existence by the intermediate value theorem, ends by positivity of the Bernstein form; witnesses where the thresholds bite |
| C56 | the tangents of splines, over real numbers | the handles' values lie between the keyframes', so the curve does; monotone by the same argument |
| C57 | every class reader on any bytes, then its writer | an invariant of each reader: what it returns is in the range of the fields; then the fits lemmas and round trips of C11–C20; a witness for each exception |
| C58 | opening, walking the loaded objects, saving | C57 for each object, C25 for the document; numbers of objects as instance ids |
| C59 | saving, opening, walking the loaded objects, saving | a writer's output depends on its references only through their numbers, shown class by class; lockstep simulation of the two walks and the two write loops; a witness for each condition |
| C60 | opening, any history of edits, loads and collections, saving | an invariant: what is alive is what is meant, what is not marked modified is what the file holds; a save depends on memory only through what is got hold of; then C25; a witness for the loss of unnoticed changes |
| C61 | mob and track of a source clip, components of a selector, before and after a save | induction over the items and the tracks; lookups commute with renumbering references, then C25; two witnesses for the limits |
| C62 | objects by class, chunks as text | induction over the chunks; the class of an object read is its chunk's code; then C25; a witness for big endian files |
| C63 | constructors, `setup_empty`, `add_mob` | constructor by constructor; an invariant of the document over the list of mobs; bounds on chunk lengths; C25_depth and C25_reopens; witnesses for the two limits |
| C64 | `write`, opening and `opened_doc`, repeated | induction over the chain of saves: the file holds the document, its objects fit to be stored again; composition of the renumberings; C59 for the settling |
| C65 | `write` and `walk_references` in turns, loading from a file that is being written | turns equal walk then write, by induction on the nesting, for any loads that agree on the document; the first load after the truncation finds nothing |
| C66 | `fast_readers` (file.py:128-132) and `read_object` with them; an object is what has the properties found | round trip with readers that keep raw texts and refuse negative counts; each view determines its object; saves agree where memories agree on the document |
| C67 | `parameter_name` over the transcribed table | texts of UUIDs spell exactly one; the table is checked once: canonical keys in ascending order, no name looks like a UUID |
| C68 | `class_id` and `valid` of references | every scanned position has a chunk head; `kind_of` is the inverse of `class_id` |
| C69 | `save` on two documents | simulation of walk and loop, no assumption on the outcome; `alike` is an equivalence |
| C70 | `__getitem__`, `__setitem__`, `__delitem__` with slices | positions of a slice by division; deletion and assignment by induction over the list |
| C71 | `close`, then `read_object`, edits and `write` | a step that needs only objects in memory does the same; marked objects are in memory, by invariant; the first missing object on the way from the content; C65 for the saves |
| C72 | registering and attribute access over the transcribed table | registration by induction, for any classes; facts about the table by computation over all its entries; inheritance as an inductive definition |

Every property can be expressed in the model. What a proof does not cover is said in `MANIFEST.json` and in section 4.

## 3. Trusted base

* Coq's kernel (checked again with `coqchk`), and what `Print Assumptions` reports for each theorem (section 5).
* The reading of the Python and C++ sources into the model: nothing ties the model to the code mechanically. Each
  definition cites the lines it models and says what it simplifies.
  As a test of that reading (not a proof), the 79 sample chunks of `tests/chunks` were run through the model the way
  `tests/test_chunks.py` runs them through the code, and all were reproduced byte for byte; `Conformance.v` keeps the 74 of at most
  1100 bytes. Likewise the 1495 different chunks of the 14 files of `tests/test_files` are read and written back byte for byte, and
  a whole file (`linear02.avb`) is opened, walked and saved without an exception to a file of the same length. Extracted to OCaml,
  the model opens and saves `bezier01`, `linear01`, `spline01` and `step01.avb` in both byte orders; the files have the length of
  the original and further saves of either order settle as C59 and C64 say. The comparison of `tests/test_retime.py` (the integrated
  speed curve against the recorded offset curve) was run on all 13 retiming files the same way, with `R` as machine floats: the
  average error is at most 1.7e-11, the test asks for less than 1e-7.
  This test found one error of transcription: the ancillary data descriptor had been modelled without its closing byte.
  The tables of classes and of assigned names in `PropDefs.v` were taken from the syntax trees of the sources by a script (parsed, not run).
* The semantics of CPython used by the model: `struct`, `BytesIO`, `OrderedDict`, `WeakValueDictionary`, `list`, `int`, `float`
  (IEEE binary64, round to nearest even), `uuid.UUID`, `datetime`/`strftime`, the `mac_roman` and `utf-8` codecs.
* `pow(10, k)` and C's `pow(10.0, k)` are taken to be correctly rounded.

## 4. What is not modelled

Every function of `src/avb` that reads, writes, looks up, copies or computes is modelled. Not modelled:

* Printing: every `__repr__`, what is printed before an exception is raised again, C++ messages.
* `examples/`, `docs/`, `setup.py`.
* The operating system below `write`, `seek`, `read` and `truncate`: buffering, torn and reordered writes, permissions. A file is a
  byte string, an interrupted save is a prefix of the list of file operations.
* Memory. The recursion limit of Python is the parameter `lim` of a save, counted in nested objects and not in Python frames.
* Garbage collection is an explicit step of the document model: an object that nothing holds may disappear at any time.
* A property that the writer needs and that was never set (`AttributeError`), except where it is an `option` in the model. So the
  constructors that leave such properties unset (of the classes that `Made.v` does not list) are not modelled.
  Properties of the wrong Python type.
* The document model (`DocModel.v`) keeps the contents of an object as a number; the objects that an `__init__` makes inside the
  defaults of a new object are not followed.
* `AVBRefList`: lists and dictionaries as entries compare by content in Python and by identity in the model.
* `integrate`: comparisons of an integer frame with a float are exact in Python; the model converts the frame, which is the same up
  to 2^53.
* Bezier and spline curves (`Bezier.v`) are modelled over the real numbers: rounding, overflow and NaN of doubles are left out there.
  `bezier_interpolate_old` is not called by anything and is left out.
* C `long` is 64 bits wide in `array('L')` of `object_positions`.
* `Ext.v`: an allocation of 2^31 elements or more counts as failed; an empty chunk is read as any other.
* `PropDefs.v`: types and defaults of properties, what methods assign on helper objects, the attributes of Python's `object`, what is put in the `__dict__` of a shape list, and
  the call of `mark_modified` after a property is set (C72 says what is stored; that the object is marked is C32_changing, in `DocModel.v`).

## 5. Assumptions of the theorems

`Print Assumptions` stands after every theorem. All theorems are closed under the global context except those about floats that go
through real numbers (Flocq and Coq's `Reals`), which use these axioms of the standard library:

* `ClassicalDedekindReals.sig_forall_dec`, `ClassicalDedekindReals.sig_not_dec`, `Classical_Prop.classic`,
  `FunctionalExtensionality.functional_extensionality_dep`:
  C04_whole_number_survives, C05_finite_decided, C05_stored_to_precision, C05_read_to_precision, C36_right_keyframe, C36_times,
  C37_before_first, C37_after_last, C37_stepped, C37_linear_at_keyframe, C37_linear_between, C47_every_half_frame_once, C47_values,
  C47_zero_at_first_keyframe, C47_values_are_doubles, C47_result_when, C47_errors, C47_extend_end, C47_extend_start,
  C51_whole_numbers_stay, C51_one_save_moves_little, C55_handles, C55_bezier_on_curve, C55_one_value_per_time, C55_bezier_within,
  C55_segment_ends, C55_through_keyframes, C55_outside, C55_equal_times_refuted, C55_close_times_refuted, C55_nearly_flat_refuted,
  C56_no_overshoot, C56_monotone, C56_on_curve.
* `ClassicalDedekindReals.sig_forall_dec` and `FunctionalExtensionality.functional_extensionality_dep` only: C04_out_of_range_refused,
  C56_flat_at_extremes.

No axiom is declared in this development.
