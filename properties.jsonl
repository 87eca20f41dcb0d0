{"id": "C01", "title": "Integer fields survive a write and a read, or the write fails", "statement": "For each integer width the file format uses (8, 16, 32, 64 bits, signed and unsigned) and each byte order, writing a value that fits and reading the bytes back gives the same value and leaves exactly the bytes that followed. A value that does not fit raises an error; it is never stored modulo the width.", "quantifier": "every integer, every width and signedness, both byte orders, every following byte string", "why_tests_cant": "The 64-bit domain cannot be enumerated and a test picks a few boundary values for a few widths.", "anchors": ["src/avb/ioctx.py:read_u8,write_u8,read_s8,write_s8,read_u16le..write_s64be"]}
{"id": "C02", "title": "Text stored in the file's default encoding comes back unchanged", "statement": "Writing a text of characters that the default (Mac Roman) encoding knows, with no NUL at either end and fewer than 65535 characters, and reading it back gives the same text and leaves exactly the bytes that followed. A text with a character outside the encoding, or with more than 65535 bytes, raises an error. The one length 65535 is the exception: it is written without complaint and cannot be read back.", "quantifier": "every Unicode text, both byte orders, every following byte string", "why_tests_cant": "The set of texts is infinite and the failing length is a single value far from any test sample.", "anchors": ["src/avb/ioctx.py:read_string,write_string"]}
{"id": "C03", "title": "Text stored as UTF-8 comes back unchanged", "statement": "Writing any Unicode text without surrogates, without NUL at either end and whose UTF-8 form is shorter than 65533 bytes, with the UTF-8 option, and reading it back with the UTF-8 option gives the same text.", "quantifier": "every sequence of Unicode scalar values, both byte orders, every following byte string", "why_tests_cant": "A test cannot cover all code points, all mixtures of encoded lengths, and the length bound.", "anchors": ["src/avb/ioctx.py:read_string,write_string", "src/avb/misc.py:BinRef,MobRef", "src/avb/essence.py:MediaDescriptor"]}
{"id": "C04", "title": "Whole-number edit rates survive a save exactly", "statement": "An edit rate or length stored as a decimal float whose value is a whole number between -2^31 and 2^31-1 is read back as exactly that number after a save, except the value 5994, which is read back as 59.94. A whole number outside this range raises an error.", "quantifier": "every whole-number double, both byte orders", "why_tests_cant": "There are 2^32 values and exactly one of them is wrong.", "anchors": ["src/avb/ioctx.py:write_exp10_encoded_float,read_exp10_encoded_float,exp10_pretty"]}
{"id": "C05", "title": "Fractional edit rates are stored to within the format's precision", "statement": "Writing a finite rate always ends after at most six scalings, with an exponent from -6 to 0; the mantissa and exponent written are in range whenever the magnitude is below 2^31; the decimal stored differs from the value given by less than one unit of the last stored digit (up to 2^-18 of a unit for the rounding of the scalings), except when a scaling comes out at 5994, which is always stored as 59.94; reading a stored decimal is exact up to two roundings. The common rates (23.976, 24, 25, 29.97, 30, 50, 59.94, 60 and so on) are exact fixed points of save and load; 24000/1001 is not.", "quantifier": "every finite double", "why_tests_cant": "The loop and the rounding depend on the exact bits of the value; only a handful of rates can be sampled.", "anchors": ["src/avb/ioctx.py:write_exp10_encoded_float,read_exp10_encoded_float"]}
{"id": "C06", "title": "UUID values survive a write and a read", "statement": "Both encodings of a UUID (tagged fields and 16 raw bytes) give back the same UUID in either byte order, whichever order it was first read in.", "quantifier": "every 128-bit UUID, both byte orders, every following byte string", "why_tests_cant": "2^128 values; byte-swapping mistakes are invisible on symmetric samples.", "anchors": ["src/avb/ioctx.py:read_uuid,write_uuid,read_raw_uuid,write_raw_uuid"]}
{"id": "C07", "title": "Mob IDs survive a write and a read in either byte order", "statement": "Writing any 32-byte mob ID and reading it back gives an equal mob ID and leaves exactly the bytes that followed, in both byte orders.", "quantifier": "every 32-byte mob ID, both byte orders, every following byte string", "why_tests_cant": "2^256 values, and each of the eleven parts has its own swap rule.", "anchors": ["src/avb/ioctx.py:read_mob_id,write_mob_id", "src/avb/mobid.py:MobID"]}
{"id": "C08", "title": "Mob ID equality, ordering, hash and integer form agree", "statement": "Two mob IDs are equal exactly when their 32 bytes are equal and exactly when their integer forms are equal; the comparison operators form a total order that agrees with equality; equal mob IDs hash alike; the integer form is between 0 and 2^256-1 and building a mob ID from it gives the same mob ID; assigning an integer outside that range stores it modulo 2^256.", "quantifier": "every pair and triple of mob IDs, every integer", "why_tests_cant": "Order laws quantify over triples of 256-bit values.", "anchors": ["src/avb/mobid.py:MobID.int,__int__,__eq__,__lt__,__le__,__gt__,__ge__,__hash__"]}
{"id": "C09", "title": "A mob ID's URN text names that mob ID", "statement": "Parsing the URN text of a mob ID gives the same mob ID back, except for the mob IDs whose text is read in the half-swapped layout although they are not stored in it; for these the result is a different mob ID. Two different mob IDs outside that set never share a URN.", "quantifier": "every 32-byte mob ID", "why_tests_cant": "The exceptional set has about 2^(-56) density; random tests do not hit it.", "anchors": ["src/avb/mobid.py:365-474"]}
{"id": "C10", "title": "Setting one field of a mob ID leaves the others alone", "statement": "After assigning any one field of a mob ID (label, length, instance high, mid, low, material or its four parts) reading that field gives the assigned value and reading any other non-overlapping field gives what it gave before. The dictionary form rebuilds an equal mob ID.", "quantifier": "every mob ID, every pair of fields, every value in range", "why_tests_cant": "The offsets overlap only by mistake, and a test would have to try all pairs of fields with distinguishing bytes.", "anchors": ["src/avb/mobid.py:MobID.SMPTELabel,length,instanceHigh,instanceMid,instanceLow,material,Data1..Data4,from_dict,to_dict"]}
{"id": "C11", "title": "Attribute dictionaries survive a save", "statement": "An attribute dictionary whose keys are distinct storable texts and whose values are 32-bit integers, storable texts, byte blobs or references is read back with the same keys, in the same order, with values of the same kind and content.", "quantifier": "every such dictionary of any size, both byte orders", "why_tests_cant": "Unbounded number of entries and of kinds in any order.", "anchors": ["src/avb/attributes.py:Attributes.read,write"]}
{"id": "C12", "title": "Reference lists survive a save in order", "statement": "Parameter lists, time crumb lists and sequences are read back with the same references in the same order and the same length; a list too long for its count field raises an error at write and is never cut short.", "quantifier": "every list length and content, both byte orders", "why_tests_cant": "The count field's limit (32767 for time crumbs) is out of reach of samples.", "anchors": ["src/avb/attributes.py:ParameterList,TimeCrumbList", "src/avb/components.py:Sequence.read,write"]}
{"id": "C13", "title": "Clips survive a save", "statement": "Source clips, timecodes, edgecodes, track references and fillers whose fields fit their declared widths are read back with every property equal, in both byte orders; a field outside its width raises an error at write.", "quantifier": "every value of every property, both byte orders", "why_tests_cant": "The product of the property domains cannot be sampled; a swapped or dropped field shows only for distinguishing values.", "anchors": ["src/avb/components.py:Component,Clip,SourceClip,Timecode,Edgecode,TrackRef,Filler"]}
{"id": "C14", "title": "Keyframe curves survive a save", "statement": "Parameter clips and control clips with any number of control points, each with any number of point properties, are read back with every point, value and property equal and in order, for each of the three value kinds.", "quantifier": "every list of control points with every list of point properties, every value kind, both byte orders", "why_tests_cant": "Nested unbounded lists with a value kind that changes the layout.", "anchors": ["src/avb/components.py:ParamClip.read,write,ControlClip.read,write"]}
{"id": "C15", "title": "A track keeps exactly the properties it had", "statement": "A track group is read back with the same number of tracks in the same order; each track has exactly the same set of optional properties present, with equal values, in all 1024 combinations; the one exception is that a track without a lock number gains lock number 0 when some track of the group has one or when the writer always stores it.", "quantifier": "every list of tracks, every subset of optional properties, every value", "why_tests_cant": "1024 subsets per track over unbounded track lists.", "anchors": ["src/avb/trackgroups.py:Track,TrackGroup.read,write"]}
{"id": "C16", "title": "Effects and other track groups survive a save", "statement": "Track effects, pan/volume effects, audio-suite effects (with one plug-in), multi-band equalizers, capture masks, strobe effects, motion effects, repeats, essence groups, transitions and selectors (whose selected index names a track) whose fields fit are read back with every property equal, in both byte orders; a field that does not fit raises an error at write. Without the two conditions in brackets the writer produces objects that cannot be read.", "quantifier": "every value of every property, every combination of optional properties, both byte orders", "why_tests_cant": "Large product domains with many optional sections.", "anchors": ["src/avb/trackgroups.py:TrackEffect,PanVolumeEffect,AudioSuitePluginEffect,EqualizerMultiBand,TimeWarp,CaptureMask,StrobeEffect,MotionEffect,Repeat,EssenceGroup,TransitionEffect,Selector"]}
{"id": "C17", "title": "Compositions survive a save", "statement": "A mob (composition, master or source mob) with its tracks, times, usage, type, descriptor and mob ID is read back with every property equal, in both byte orders.", "quantifier": "every value of every property, every list of tracks, both byte orders", "why_tests_cant": "Large product domain.", "anchors": ["src/avb/trackgroups.py:Composition.read,write"]}
{"id": "C18", "title": "Media descriptors survive a save", "statement": "Every media descriptor class (base, tape, film, nagra, file, multi, wave, AIFC, PCMA, MPEG audio, image, CDCI, MPEG image, JPEG, RGBA, data, ancillary data) is read back with every property equal, in both byte orders, for every combination of the optional sections in which the properties sharing a section are set together; a field that does not fit raises an error at write.", "quantifier": "every value of every property, every subset of optional sections, both byte orders", "why_tests_cant": "The image descriptor alone has more than a dozen optional sections.", "anchors": ["src/avb/essence.py:MediaDescriptor ... ANCDataDescriptor"]}
{"id": "C19", "title": "Locators, markers, positions, parameters and trackers survive a save", "statement": "Every remaining object class of the format (file, Windows and URL locators, graphic and colour effects, shape lists, effect parameter lists, user parameters, parameter items, media stream locators, positions, bin and mob references, markers with a three-component colour, tracker objects) is read back with every property equal, in both byte orders; a field that does not fit raises an error at write.", "quantifier": "every value of every property, both byte orders", "why_tests_cant": "Large product domains with length-prefixed blobs.", "anchors": ["src/avb/misc.py"]}
{"id": "C20", "title": "Bins and their view settings survive a save", "statement": "A bin with any number of items up to the format's limit, its six sift settings, columns and view options is read back with every property equal; a bin with more than 65535 items switches to the large layout and is read back as a large bin; a value that does not fit raises an error at write.", "quantifier": "every bin, any number of items, both byte orders", "why_tests_cant": "The layout switches at 65536 items.", "anchors": ["src/avb/bin.py:Bin.read,write,BinFirst,BinViewSetting,BinItem,SiftItem"]}
{"id": "C21", "title": "The byte order chosen for a save does not change what is read", "statement": "Saving an object in little-endian and in big-endian form both succeed or both fail, the two forms have the same length, and reading each in its own order gives equal objects. Saving a document goes alike in the two orders too: both saves complete, or both stop with the same exception after the same number of steps, the files are equally long, and under every number both show the same object.", "quantifier": "every object of every class, every document", "why_tests_cant": "A mistake in one order shows only for values that are not byte palindromes; tests cover the sample files only.", "anchors": ["src/avb/ioctx.py:AVBIOContext", "src/avb/file.py:AVBFile.write"]}
{"id": "C22", "title": "A truncated object is never accepted", "statement": "If the bytes of a saved object are cut short at any point, reading them raises an error; no property value is invented from missing bytes.", "quantifier": "every object of every class, every cut point, both byte orders", "why_tests_cant": "Every cut point of every object; short reads of blobs return silently in this language.", "anchors": ["src/avb/ioctx.py", "src/avb/file.py:AVBFile.read_object"]}
{"id": "C23", "title": "Bytes left over in an object are never ignored", "statement": "If extra bytes follow a saved object inside its chunk, reading the object raises an error.", "quantifier": "every object of every class, every non-empty suffix, both byte orders", "why_tests_cant": "All suffixes, including ones that look like further optional sections.", "anchors": ["src/avb/file.py:AVBFile.read_object"]}
{"id": "C24", "title": "The object table locates every object", "statement": "After opening a file, listing the chunks gives the class and the exact byte range of every object in file order; the ranges do not overlap and asking for object i reads only the bytes of chunk i.", "quantifier": "every well-formed file with any number of chunks of any sizes", "why_tests_cant": "Unbounded number of chunks.", "anchors": ["src/avb/file.py:AVBFile.__init__,read_chunk,read_object,chunks,iter_class_ids"]}
{"id": "C25", "title": "A saved document reopens as the same document", "statement": "Saving a document and opening the result gives a document whose root corresponds to the original root, with each object reachable from the root having all properties equal, references leading to the corresponding objects, in either byte order.", "quantifier": "every finite acyclic object graph of any shape and size whose objects fit the format, both byte orders", "why_tests_cant": "Arbitrary graphs with sharing; tests compare a few sample files.", "anchors": ["src/avb/file.py:AVBFile.write,AVBFile.__init__,read_object", "src/avb/core.py:walk_references"]}
{"id": "C26", "title": "Each reachable object is saved once, before whatever refers to it", "statement": "A save stores every object reachable from the root exactly once and nothing else; every stored reference is 0 or names an object stored earlier; the root is stored last; the count in the header is the number of objects stored.", "quantifier": "every finite acyclic object graph", "why_tests_cant": "Statement about every node of every graph.", "anchors": ["src/avb/file.py:AVBFile.write", "src/avb/core.py:walk_references"]}
{"id": "C27", "title": "Sharing is kept by a save", "statement": "Two references to the same object before a save lead to the same object after reopening, and two references to different objects lead to different objects.", "quantifier": "every pair of references in every finite acyclic object graph", "why_tests_cant": "All aliasing patterns.", "anchors": ["src/avb/file.py:AVBFile.write", "src/avb/ioctx.py:write_object_ref"]}
{"id": "C28", "title": "An interrupted save is never mistaken for a document", "statement": "If a save stops after any number of its file writes (crash or error), opening what was stored raises an error or shows no content; it shows the document only once the save has completed, and then the whole of it.", "quantifier": "every document, every prefix of the sequence of file writes, every partial last write of the body", "why_tests_cant": "Every crash point of every save.", "anchors": ["src/avb/file.py:AVBFile.write,write_header"]}
{"id": "C29", "title": "Saving does not change the document", "statement": "A save that succeeds can be repeated with an identical result, and after any save, successful or not, a save in the other byte order gives the same document.", "quantifier": "every document, every sequence of saves", "why_tests_cant": "Histories of saves; hidden state between saves (id maps, output context).", "anchors": ["src/avb/file.py:AVBFile.write"]}
{"id": "C30", "title": "A save of a cyclic document does not finish", "statement": "If an object can be reached from itself, a save from a root that reaches it never completes and the file on disk is left without content; if no object can be reached from itself the save visits finitely many objects and completes.", "quantifier": "every finite object graph", "why_tests_cant": "Non-termination is not testable, and all cycles must be covered.", "anchors": ["src/avb/core.py:walk_references", "src/avb/file.py:AVBFile.write"]}
{"id": "C31", "title": "New objects get identities of their own", "statement": "Every object made through a document's factory gets an identity above those of all objects of the opened file and of all objects made before; no two objects alive share an identity, and following an identity gives the object that has it. A reference of the opened file to an object beyond its table is an error at first, but leads to an unrelated new object once enough objects were made.", "quantifier": "every history of loads, creations, changes and releases on every opened or new document", "why_tests_cant": "Histories of any length.", "anchors": ["src/avb/file.py:AVBFactory.from_name,AVBFile.__init__"]}
{"id": "C32", "title": "Reading never marks anything as modified and changing always does", "statement": "Loading objects, in any order and any number of times, failing or not, leaves the set of modified objects unchanged; assigning a property of a loaded or created object, or changing an attribute dictionary or a reference list through its mutators, adds the owning object to it and no other. An object in the set is not lost and keeps its contents, whoever releases it, until it is changed again.", "quantifier": "every history of loads, creations, changes and releases", "why_tests_cant": "Histories of any length.", "anchors": ["src/avb/core.py:AVBObject.__setattr__,mark_modified,AVBRefList", "src/avb/attributes.py:Attributes", "src/avb/file.py:add_modified,read_object"]}
{"id": "C33", "title": "Reference lists behave like lists", "statement": "append, extend, insert, pop, item assignment, deletion and reading an item of a reference list have the effect they have on an ordinary list of the objects referred to, negative and out-of-range indexes included, and each successful change marks the owner. remove takes out the first equal entry of a list filled with objects, but never finds an object in a list that was loaded from a file. clear, sort and reverse leave the list unchanged, contrary to their names. pop of an entry that cannot be loaded raises and still removes the entry.", "quantifier": "every list, every history of operations", "why_tests_cant": "Histories of any length over any content.", "anchors": ["src/avb/core.py:AVBRefList"]}
{"id": "C34", "title": "A sequence's length and positions agree", "statement": "The length of a sequence is the total of its clips' lengths less the total of its transitions' lengths; the start positions listed for its components are the running totals by the same rule: a clip starts where the previous clip ends less any transition between, a transition overlaps the end of the clip before it, and the last position plus the last clip's length is the sequence's length.", "quantifier": "every list of components", "why_tests_cant": "Unbounded lists with any mixture of transitions.", "anchors": ["src/avb/components.py:Sequence.length,positions"]}
{"id": "C35", "title": "Looking up a component by time gives the component playing then", "statement": "The index and start position returned for a time belong together, and the component is not of zero length when some component has a length; a sequence that is not empty always gives a component. In a sequence in which each transition stands between clips, shorter than the one before and no longer than the one after, a time after the start and up to the end gives a component whose range contains it (a clip owns the times after its start up to its end, a transition those from its start to before its end), and if no clip is shorter than its two transitions together a time inside a transition gives that transition. A transition that covers the whole clip before it can be missed. Without transitions, a time at or before the start gives the first component with a length and one beyond the end the last.", "quantifier": "every list of components, every time", "why_tests_cant": "All sequences and all times, boundary instants included.", "anchors": ["src/avb/components.py:Sequence.nearest_index_at_time,nearest_component_at_time"]}
{"id": "C36", "title": "Keyframe lookup finds the right keyframe", "statement": "For a curve whose keyframes have strictly increasing times, looking up a time gives the index of the last keyframe at or before it, or 0 if there is none; the search always terminates, whatever the order of the keyframes.", "quantifier": "every non-empty keyframe list, every time", "why_tests_cant": "All lists and times; termination for all inputs.", "anchors": ["src/avb/components.py:ParamClip.nearest_index"]}
{"id": "C37", "title": "A curve passes through its keyframes", "statement": "The value of a stepped or linear curve at a keyframe's time is that keyframe's value; outside the keyframes' range a curve of any kind has the nearest end value; between two keyframes the stepped value is the left one and the linear value lies between the two, never past either, as long as the difference of the two values is a finite double and the time's distance from the left keyframe is still below the whole distance after rounding. Without these conditions the linear value can pass the right keyframe's value, or not be a number.", "quantifier": "every curve, every time", "why_tests_cant": "All curves and times.", "anchors": ["src/avb/components.py:ParamClip.value_at", "src/avb/interpolation.py:lerp,cubic_interpolate,bezier_interpolate"]}
{"id": "C38", "title": "A bin finds the mobs that were added to it", "statement": "After any history of additions and lookups, looking up a mob ID gives the last added mob with that ID, and nothing if none was added; listing the mobs gives them in the order added, and the listings by kind select exactly the mobs of that kind. Changes made behind the bin's back (editing the item list or a mob's ID after the first lookup) are not noticed by lookups. With an item that has no mob the first lookup raises and later ones miss mobs after it.", "quantifier": "every history of additions and lookups", "why_tests_cant": "Histories of any length; the lookup table is built lazily at an arbitrary point.", "anchors": ["src/avb/bin.py:Bin.find_by_mob_id,add_mob,mobs,toplevel,compositionmobs,mastermobs"]}
{"id": "C39", "title": "Dependent mobs are listed completely and in dependency order", "statement": "For a mob whose sources do not lead in a circle and whose mobs have distinct IDs, the dependent mobs listed are exactly those reachable through source clips, each once, none before the mobs it depends on. If the sources lead in a circle the listing never ends.", "quantifier": "every finite dependency graph", "why_tests_cant": "All graphs.", "anchors": ["src/avb/trackgroups.py:TrackGroup.dependant_mobs"]}
{"id": "C40", "title": "A copy equals its original", "statement": "Copying an object into a document gives an object of the same class with equal properties, plus the ones its class sets on creation and the original lacks. Every object, reference list and attribute dictionary reached from the copy is a new one of the target document, and what was there before is unchanged, also if the copy fails. Every new thing is referred to from one place, so an object shared by two references is copied twice. The parent of a copied reference list is the copy. Copying succeeds exactly if the objects to copy form no circle, all their classes can be created without arguments, reference lists hold no None and attributes only integers, texts, bytearrays and objects.", "quantifier": "every object graph and every recursion limit", "why_tests_cant": "All graphs.", "anchors": ["src/avb/core.py:AVBObject.copy,AVBRefList.copy", "src/avb/attributes.py:Attributes.copy"]}
{"id": "C41", "title": "A copy does not share changeable data with its original", "statement": "Objects, reference lists and attribute dictionaries reached from a copy are never the ones reached from the original, and bytearrays in attributes and plain lists directly in properties are new. Bytearrays, mob IDs and other changeable data stored directly in properties, and everything but objects inside plain lists, are the very same in the copy, so changing them in place through one changes the other.", "quantifier": "every object graph", "why_tests_cant": "Aliasing over all graphs.", "anchors": ["src/avb/core.py:AVBObject.copy"]}
{"id": "C42", "title": "Names for media kinds, mob types and usages are one to one", "statement": "Setting a media kind by name and asking for its name gives the same name; an unknown name raises an error and changes nothing; known codes and names correspond one to one, and different unknown codes have different names that cannot be set. A mob made with a type given as text has that type, and a text that is no type raises an error; the name passed is not used (the type becomes the name), and a number passed as the type is taken without error. Named usages have names of their own; all other usages share the name 'unknown'.", "quantifier": "every code and every text", "why_tests_cant": "Infinite domain of codes and of texts.", "anchors": ["src/avb/components.py:Component.media_kind", "src/avb/trackgroups.py:Composition.mob_type,usage"]}
{"id": "C43", "title": "The accelerated readers agree with the standard readers", "statement": "For every little-endian chunk the standard reader of a class accepts, whoever wrote it, the accelerated reader of the class accepts it as well and gives the same properties, for each of the fourteen classes it covers, apart from these differences: the kind of media, the usage code, the component width and integer keyframe values are taken as unsigned numbers; texts keep zero characters at their ends; a negative number of tracks, line map entries or effect parameters is an error. Chunks written by the library are read without an error. The converse does not hold: the accelerated readers accept chunks the standard ones refuse.", "quantifier": "every covered class, every chunk the standard reader accepts, with or without checks of references; every object the library can write", "why_tests_cant": "Two implementations in two languages over all inputs.", "anchors": ["src/avb/_ext_core.cpp", "src/avb/_ext.pyx", "src/avb/components.py", "src/avb/trackgroups.py", "src/avb/essence.py", "src/avb/misc.py", "src/avb/attributes.py"]}
{"id": "C44", "title": "A reference read from a file always points into its object table", "statement": "Every reference held by an object that was read without an error is 0 or the number of a chunk of the file.", "quantifier": "every byte string offered as a file, every object read from it", "why_tests_cant": "All byte strings, including corrupt ones.", "anchors": ["src/avb/ioctx.py:read_object_ref", "src/avb/utils.py:AVBObjectRef.valid"]}
{"id": "C45", "title": "The header written can always be read", "statement": "For every creator version text storable in Mac Roman and every save time in range the header written is accepted on opening; the version read back is the text's first 30 characters padded with blanks (outer NULs removed), the save time is the one written, and the header's length is the same for all of them.", "quantifier": "every version text and time, both byte orders", "why_tests_cant": "All texts, including ones with NULs and of any length.", "anchors": ["src/avb/file.py:write_header,AVBFile.__init__"]}
{"id": "C46", "title": "Dates survive a save where local time is unambiguous", "statement": "A date read from a file and written again has the same time stamp provided the local time of that instant is not shared with another instant; in a zone with a fixed offset this holds for every date, and in a zone that sets clocks back it fails for some instant.", "quantifier": "every time zone rule and every time stamp", "why_tests_cant": "Depends on the zone of the machine and on rare instants.", "anchors": ["src/avb/ioctx.py:read_datetime,write_datetime,datetime_to_timestamp"]}
{"id": "C47", "title": "Integrating a speed curve gives offsets that start at the base frame", "statement": "The result of integrating a curve over a range lists each whole and half frame of the range once, in order; the value at the first keyframe's frame is the base frame (exactly when the base frame is zero, otherwise up to the rounding of two subtractions); successive values differ by the trapezoid sum of the speeds between, which samples a tenth of a frame early; extending the range at its end does not change the values listed for the frames it contained, and extending it at its start does not change them either up to the first keyframe, nor beyond it except for rounding. There is a result exactly when the first keyframe's frame is not after the range and the range is not that frame alone; other ranges raise.", "quantifier": "every curve and every range", "why_tests_cant": "All curves and ranges.", "anchors": ["src/avb/components.py:ParamClip.integrate", "src/avb/interpolation.py:integrate_iter,mc_trapezoidal_integrate"]}
{"id": "C48", "title": "Objects of another document are never stored", "statement": "If the graph reachable from the root contains an object made by another document whose instance id none of the document's own reachable objects has, the save raises an error and what is left on disk shows no content. In any case a completed save stores only objects of the document itself; but a foreign object with the instance id of an own one is silently replaced by that one.", "quantifier": "every document, every foreign object at any position", "why_tests_cant": "Any position in any graph.", "anchors": ["src/avb/file.py:write_object,write"]}
{"id": "C49", "title": "Integer and byte-string helpers are inverse", "statement": "Converting a byte string to an integer and back with the same length and order gives the same byte string; converting an integer to a byte string and back gives the integer modulo 256 to the power of the length; the two orders are mirror images.", "quantifier": "every byte string and integer, both orders", "why_tests_cant": "Unbounded lengths and integers.", "anchors": ["src/avb/utils.py:int_from_bytes,bytes_from_int,unpack_u16le_from,unpack_u32le_from"]}
{"id": "C50", "title": "Different documents are saved as different files", "statement": "Two objects of one class with different storable properties never have the same saved bytes; the class code stored with an object determines its class.", "quantifier": "every pair of objects of every class", "why_tests_cant": "All pairs.", "anchors": ["src/avb/file.py:write_object"]}
{"id": "C51", "title": "Repeated saves of a decimal float", "statement": "A whole number in range other than 5994 is unchanged by any number of saves. Any other value below 2^31 (whose scalings stay away from 5994) is moved by one save by less than one unit of the last digit kept; such moves can add up over repeated saves and need not settle: 0.126763 loses a millionth at each of three saves and then alternates between two values.", "quantifier": "every double below 2^31 in magnitude, any number of saves", "why_tests_cant": "The drift depends on the bits of the value and shows only for some of them, after several saves.", "anchors": ["src/avb/ioctx.py:write_exp10_encoded_float,read_exp10_encoded_float"]}
{"id": "C52", "title": "The save time in the header is the right calendar date", "statement": "The text written to the header for the time of the last save gives the year, month, day, hour, minute and second that the Gregorian calendar has for the local clock reading, for every time from 1970 to the end of the year 9999.", "quantifier": "every clock reading from 1970 to 9999", "why_tests_cant": "Leap days and century rules go wrong on few of millions of days.", "anchors": ["src/avb/file.py:write_header"]}
{"id": "C53", "title": "In-place changes are kept only by luck", "statement": "A change made in place to a plain list (such as a mob's tracks or a bin's items), to a helper object (a track, a bin item), to a reference list without owner or to a byte blob succeeds but does not mark the owning object. It is kept if the owner is marked already or is the document's content object; otherwise it is lost as soon as nobody else holds the owner, and the object is read again as it was stored.", "quantifier": "every history of loads, creations, changes and releases", "why_tests_cant": "Whether a change survives depends on the whole history and on when objects are released.", "anchors": ["src/avb/core.py:AVBObject.mark_modified,AVBRefList.mark_modified", "src/avb/file.py:read_object"]}
{"id": "C54", "title": "Defaults in property tables are shared", "statement": "A list given as a default in a property table (home_rect, background_color and forground_color of a bin, aspect_ratio and line_map of an image descriptor) is the very same list in every newly created object of the class, in any document; new objects share nothing else.", "quantifier": "every class, any two creations", "why_tests_cant": "All classes and defaults.", "anchors": ["src/avb/core.py:AVBObject.__init__", "src/avb/bin.py:212-214", "src/avb/essence.py:535-536"]}
{"id": "C55", "title": "Bezier curves pass through their keyframes and follow their handles", "statement": "For a curve of keyframes at increasing times, the value asked for between two keyframes is the value of the cubic Bezier curve given by the two keyframes and their handles (limited to the segment) at the place whose time is the time asked for, up to 4 parts in 10^10 of the segment in time at its ends. There is one such place. At a keyframe the value is exactly the keyframe's, outside of all keyframes it is the first or last one, and it never leaves the range of the four values of the curve. This is claimed of the algorithm in exact arithmetic.", "quantifier": "all lists of keyframes at increasing times, all handles, all times, outside of the solver's thresholds of 10^-10", "why_tests_cant": "The solver has five cases of real coefficients and the handles have nine arrangements; tests try a handful of curves.", "anchors": ["src/avb/interpolation.py:10-185", "src/avb/components.py:ParamClip.value_at"]}
{"id": "C56", "title": "Splines never overshoot", "statement": "A spline curve between two keyframes stays between their two values and moves in one direction only; it is flat at a keyframe that is a local extreme. This is claimed of the algorithm in exact arithmetic.", "quantifier": "all lists of keyframes with times at least 2.5e-10 apart, all times", "why_tests_cant": "Real-valued inputs: the tangent rule has many sign cases.", "anchors": ["src/avb/interpolation.py:213-274", "src/avb/components.py:ParamClip.value_at"]}
{"id": "C57", "title": "What can be read can be written", "statement": "A chunk that any program wrote and that the library can read as an object is written by the library without an exception, ends in the closing byte, and reads back as the same object with its references renumbered. The exceptions are listed class by class and are exact: rates the decimal writer does not reproduce, mob IDs and names the file may leave out but the writer demands, numbers read unsigned and written signed, lengths with less room when written, and the classes written without closing byte. Tracks without lock numbers come back with the number 0.", "quantifier": "all classes, all byte strings the class reader accepts, both byte orders, all numberings", "why_tests_cant": "Tests read what the library or a few files contain; a reader that accepts more than its writer can express shows only on chunks nobody has at hand.", "anchors": ["src/avb/file.py:262-336", "src/avb/components.py", "src/avb/trackgroups.py", "src/avb/misc.py", "src/avb/essence.py", "src/avb/bin.py", "src/avb/attributes.py"]}
{"id": "C58", "title": "An opened file can be saved again", "statement": "A file is opened and the document saved in either byte order. If the objects reachable from its root can be read and satisfy the conditions of C57, and do not refer to each other in a circle, the save completes; the new file opens and holds exactly these objects, once each, equal to those of the old file up to the renumbering, and shows the same root.", "quantifier": "all files (any bytes that open), all orders of walking the references, both byte orders", "why_tests_cant": "Depends on every object of every file; objects are loaded while the save runs and may be dropped and loaded again.", "anchors": ["src/avb/file.py:103-182", "src/avb/file.py:262-370", "src/avb/utils.py:14-28", "src/avb/core.py:136-162"]}
{"id": "C59", "title": "Opening and saving settles", "statement": "A document is saved in one byte order, the file opened, and saved in any byte order: the second file is, byte for byte, what saving the document itself in that byte order gives; in the same byte order no byte changes. The document has to walk its references in the order in which the library walks those of objects it has read, its save time has to be one the local clock shows, and its creator version must not begin with a zero or have one in its thirtieth place; each of these conditions is needed. Without them, and for any file another program wrote whose objects satisfy the conditions of C57, the second file is the last that differs: opening it and saving gives it again.", "quantifier": "all documents and all files, both byte orders at each step, all zones whose mktime inverts localtime", "why_tests_cant": "A comparison of two saved files covers one document; that no property, number, order or header field drifts needs all classes and all reference graphs.", "anchors": ["src/avb/file.py:103-182", "src/avb/file.py:262-389", "src/avb/utils.py:14-28", "src/avb/core.py:136-162"]}
{"id": "C60", "title": "What is edited is what is saved", "statement": "A program opens a file (or starts a new document) and then, in any order and any number of times, follows references, makes objects, assigns to properties, changes objects in place, sets the content and lets objects go; the garbage collector may come by at any moment. As long as objects are changed in place only after the program made them or assigned to them: getting hold of an object always gives the contents last given to it, or what the file holds if it was not touched; following references and letting objects go changes neither the file a save produces nor its outcome; and the saved file, opened again, holds exactly the objects that can be reached from the content, each once, with those contents and references renumbered. Without the condition a change can be lost, silently: an object that was read, changed in place and let go is saved as the file had it.", "quantifier": "all files, all finite histories of edits, all objects, both byte orders", "why_tests_cant": "Which objects are collected when depends on the interpreter, and a lost edit shows only if the object is let go between the change and the save; all interleavings of edits, loads and collections have to be considered.", "anchors": ["src/avb/file.py:103-119", "src/avb/file.py:172-196", "src/avb/file.py:262-323", "src/avb/file.py:67-85", "src/avb/core.py:184-206", "src/avb/utils.py:14-28"]}
{"id": "C61", "title": "A clip finds its source", "statement": "In a bin whose items are compositions with mob ids, a source clip that names a mob finds the last item with that id, or None if there is none (a clip that names no mob finds None); the track it shows is the first track of that composition that has the clip's track number and a component of the clip's media kind (the number that its chunk has after the marks and two references; only classes that derive from Component have one), or None. Saving the document and opening the file changes none of this: every clip finds the object that what it found in memory has become, and the same track of it. The components of a selector that was read are those of its tracks in order, and the selected one is among them. Two limits: a track without a number before the matching one makes the lookup raise, and of two mobs with the same id the first is never found.", "quantifier": "all stores of objects, bins, compositions, clips, documents, both byte orders", "why_tests_cant": "A lookup goes through references, ids, track numbers and media kinds at once; tests try a few timelines, the claim is about every bin and every renumbering a save can do.", "anchors": ["src/avb/components.py:314-327", "src/avb/bin.py:372-379", "src/avb/trackgroups.py:996-1022", "src/avb/components.py:95-116"]}
{"id": "C62", "title": "Listing objects by class, chunks as text", "statement": "iter_class_ids gives the objects of exactly those chunks whose code is in the list, in the order of the file, each as read_object gives it, and each is of a class that was asked for; chunks of other classes are not decoded. In a saved document these are the document's objects of those classes, each once, in the order written. The text of a chunk of a little endian file consists of lower case hexadecimal digits that spell the bytes of the file from the chunk's code to its end; of a big endian file it does not.", "quantifier": "all opened files, all lists of class codes, all chunks", "why_tests_cant": "That nothing is left out, repeated or decoded needlessly is a statement about all files and all sets of codes.", "anchors": ["src/avb/file.py:29-55", "src/avb/file.py:243-260", "src/avb/file.py:372-379"]}
{"id": "C63", "title": "New objects and new documents can be saved", "statement": "A constructor of one of the complete classes (those whose new objects have every property their writer asks for) given arguments in range makes an object of its class, with the edit rate, media kind, mob type and ID it was given; what it makes is fit to be stored exactly and refers only to what was made with it. Unknown media kinds and mob types are refused. A new document to whose bin any number of new mobs (up to 65535) are added can be saved in either byte order with a recursion of three, and opening the file shows a bin with the document's number, the default columns and the mobs in the order they were added, each an object of its own with its type, ID and time. Two limits: the name given to a composition is replaced by its type, and a bare TrackGroup can be made but not saved.", "quantifier": "all constructor calls, all lists of mobs, all byte orders, zones, versions and orders of walking", "why_tests_cant": "Defaults must fit every writer and every byte order, and the document must reopen for every number of mobs; tests build one or two files.", "anchors": ["src/avb/file.py:57-88", "src/avb/file.py:184-193", "src/avb/bin.py:199-235", "src/avb/bin.py:381-384", "src/avb/trackgroups.py:1028-1056", "src/avb/components.py:18-36"]}
{"id": "C64", "title": "Saving and opening can be repeated without end", "statement": "However often a document is saved, opened, saved and so on, with any byte orders, recursion limits, time zones and orders of walking, the last file holds exactly the objects of the first document, each once, with the same properties, references, sharing and root; who starts at the root and follows references sees no difference. The same holds for a file from elsewhere whose objects can be written back. The chain never breaks off: every file in it opens and can be saved again. On one machine it settles: from the second file on, all files of one byte order are equal byte for byte.", "quantifier": "all documents, all chains of saves of any length", "why_tests_cant": "Small losses per generation (a rounding, a renumbering slip, a lost link) add up over many saves; a test saves a file once and compares a few properties.", "anchors": ["src/avb/file.py:348-370", "src/avb/file.py:103-183", "src/avb/file.py:262-323", "src/avb/core.py:136-163"]}
{"id": "C65", "title": "Loading objects while the file is written", "statement": "A save loads objects that are not in memory while it writes. When loading gives the same at any moment, taking turns makes no difference to a walk followed by the writing: same bytes in the same order, same exception. When a document is saved over the file it was opened from, opening that path for writing has emptied it: the save gives what it gives elsewhere provided all objects of the document are in memory, whatever the buffers show. It is not given in general: with only the content in memory and the content referring to other objects, the save raises, the file is left with a header at most, opens as nothing, and the document is lost.", "quantifier": "all documents, all behaviours of the file and its buffers during the save, all orders of walking", "why_tests_cant": "Tests save to a different path, and small files fit the read buffer, so the loss shows only with larger files or unbuffered ones.", "anchors": ["src/avb/file.py:124", "src/avb/file.py:262-283", "src/avb/file.py:348-370", "src/avb/utils.py:20-28", "src/avb/core.py:136-163"]}
{"id": "C66", "title": "Documents opened with the accelerated readers", "statement": "When the extension is built, objects of fourteen classes in little endian files are read by accelerated readers by default. What the library has written of an object whose numbers are not negative where the two readers disagree on signs is read by them as the very same object, every property and no other; what they find determines the object. So a document the library has saved is the same opened with them and without: the same numbers lead to objects, the objects are equal, and every later save writes the same bytes. It is not given with negative numbers: a filler with media kind -1 is saved, read as 65535 with the accelerated readers, and then cannot be saved again.", "quantifier": "all classes with accelerated readers, all objects and documents, both byte orders, all later saves", "why_tests_cant": "The tests of the extension compare the two readers on sample files, which hold no negative numbers in these places and only some of the optional parts.", "anchors": ["src/avb/file.py:128-132", "src/avb/file.py:262-307", "src/avb/_ext.pyx", "src/avb/_ext_core.cpp", "src/avb/components.py:47-71"]}
{"id": "C67", "title": "Names of effect parameters", "statement": "The name of a parameter item is the one the table has for its UUID, and the text of the UUID itself otherwise. Every one of the 735 entries of the table is found by exactly one UUID (keys are canonical and distinct), and parameters the table does not know keep distinct names that no known parameter has. It is not given that names tell parameters apart: several UUIDs have the same name.", "quantifier": "all parameter items, all UUIDs, all entries of the table", "why_tests_cant": "The tests never ask for parameter_name; a key in upper case or a doubled key would go unnoticed, and 2^128 UUIDs cannot be tried.", "anchors": ["src/avb/misc.py:519-521", "src/avb/parameter_uuids.py:2-738"]}
{"id": "C68", "title": "What references tell", "statement": "A reference is valid exactly up to the number of objects of the file, and the reader lets no other pass. For every valid reference the class code can be told without an exception; if the object can be read, it is the code of its class, and in a file the library has saved it is the class of the object the reference led to. Beyond the objects there is neither class nor object. It is not given that a class code means an object: the null reference is valid and gives the code of the header.", "quantifier": "all files that open, all references, all saved documents", "why_tests_cant": "Tests look at references of a few samples, all valid; damaged tables and the null reference are not asked.", "anchors": ["src/avb/utils.py:12-41", "src/avb/file.py:168-180", "src/avb/file.py:243-260", "src/avb/ioctx.py:176-181"]}
{"id": "C69", "title": "Saves do not depend on addresses", "statement": "What a save does depends on what the document is, not on where its objects are: with the objects at other addresses, with other instance ids and in another AVBFile, a save takes the same steps on the file and ends the same way, completed or with the same exception. Documents that look alike (followed reference by reference to any depth) are saved to files that look alike, so a copy, which has a shared object several times, is saved to a file that looks like that of the original. It need not be the same file: the copy may have more objects.", "quantifier": "all documents, all ways to move or copy the objects, all byte orders, recursion limits and time zones", "why_tests_cant": "Tests compare a copy with its original object by object in memory; they cannot vary addresses and ids, and do not compare the files.", "anchors": ["src/avb/file.py:325-370", "src/avb/ioctx.py:183-193", "src/avb/core.py:136-163", "src/avb/core.py:221-242"]}
{"id": "C70", "title": "Slices of reference lists", "statement": "Deleting a slice of a reference list leaves exactly the objects at the other positions; assigning to a slice of step one puts the new objects in the place of the old ones; assigning to any other slice needs as many objects as the slice has positions and then changes exactly these. Each marks the owner; what is refused (step zero, wrong number) changes and marks nothing. Reading a slice of a list filled with objects gives these objects. It is not given that reading a slice of a list from a file gives objects: it gives the references. Nor that every change marks the owner: += and *= are inherited from list and do not.", "quantifier": "all lists, all start, stop and step values, present or omitted, all new contents", "why_tests_cant": "Bounds may be negative, out of range or crossed, with any step; tests use one or two slices and no loaded lists.", "anchors": ["src/avb/core.py:53-134"]}
{"id": "C71", "title": "Documents whose file was closed", "statement": "After close (or the end of a with block) a document goes on working with the objects that are in memory: what is got from it is what the program means it to have, and objects that were made or assigned to, before or after, are always there. An object of the file that is not in memory raises ValueError from then on. A document that was made and not opened is not affected at all. A closed document can be saved like an open one if all its objects are in memory; if one is missing the save ends in an exception and leaves nothing that can be opened. It is not given that a document opened and closed can be saved, nor that an object looked at before is still there.", "quantifier": "all files, all histories of edits before and after closing, any collection of garbage, all byte orders, recursion limits and time zones", "why_tests_cant": "What is in memory depends on the garbage collector and on everything done before; tests close files only when they are done with them.", "anchors": ["src/avb/file.py:262-283", "src/avb/file.py:381-389", "src/avb/file.py:195-196"]}
{"id": "C72", "title": "Properties of objects", "statement": "A class has the properties it lists and those of the class it is derived from. In every registered class a property can be set, and getting it then gives what was set, with references followed (so no method or other attribute of the class hides it); the other properties and their order stay, a new one comes last. A property that an object does not have is missing (AttributeError), and get then gives its default unchanged. Whatever the methods of a class assign on their own object is a property of the class and of all classes derived from it, or one of the few other attributes. A name that is neither a property nor one of the few other attributes that can be set is refused, by all registered classes but the media descriptors and ShapeList. It is not true of those: a media descriptor takes exactly the properties of all media descriptors (they share one table), and a shape list takes any name. Whatever an accelerated reader finds in a chunk that the standard reader accepts is a property of the class of the chunk, or of its tracks or parameters. Apart from attributes, parameter lists and lists of time crumbs, the class codes of the model and of the table of classes are the same, one class each.", "quantifier": "all classes of the table (registration: any list of classes), all names, all values, all property data", "why_tests_cant": "The table has 80 classes with 325 different property names; the names that are wrongly taken are those nobody writes in a test.", "anchors": ["src/avb/core.py:19-50", "src/avb/core.py:166-217", "src/avb/utils.py:100-116", "src/avb/essence.py:15-26", "src/avb/essence.py:101-105", "src/avb/misc.py:140-145"]}
