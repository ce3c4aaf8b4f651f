{"id": "C01", "title": "Byte-for-byte null test", "statement": "Parsing a file and saving the result without touching it reproduces the file byte for byte exactly when the file is canonical: every variable-length chunk uses the shortest length prefix and is complete, every payload is the canonical encoding of its event type, and the header's channel count equals the (non-zero) number of channel-start events. For a parseable non-canonical file save either raises or writes different bytes.", "quantifier": "for every byte string accepted by parse", "why_tests_cant": "The set of FLP files is infinite; test suites compare a handful of sample projects, which are all canonical.", "anchors": ["pyflp/__init__.py:parse", "pyflp/__init__.py:save", "pyflp/_events.py:EventBase.__bytes__"]}
{"id": "C02", "title": "Saved projects load back unchanged", "statement": "For every project whose event values are encodable, saving and parsing again succeeds and gives the same number of events, in the same order, each with the same id, same event type and same value, and the same file format and PPQ.", "quantifier": "for every event list (any length, any mix of event types, any in-domain values), format and PPQ", "why_tests_cant": "Needs induction over arbitrary event lists and over all values of each event type.", "anchors": ["pyflp/__init__.py:parse", "pyflp/__init__.py:save"]}
{"id": "C03", "title": "Chunk framing", "statement": "parse returns exactly one event per chunk of the file, in file order, with the chunk's id, and its value decoded from exactly that chunk's payload bytes - for every sequence of chunks, whatever the ids and payload lengths.", "quantifier": "for every finite list of (id, payload) chunks with any id 0-255", "why_tests_cant": "Framing errors show up only for particular id/length combinations (e.g. payloads of 128+ or 16384+ bytes); there are unboundedly many.", "anchors": ["pyflp/__init__.py:parse", "construct.VarInt (library)"]}
{"id": "C04", "title": "Header validation is exact", "statement": "parse raises HeaderCorrupted for a file if and only if one of the header conditions fails (14-byte header present, magic FLhd, size 6, known format, valid PPQ, magic FLdt, non-zero event size, file length equal to event size + 22); no event is looked at before all of them hold.", "quantifier": "for every byte string, including truncated and empty ones", "why_tests_cant": "Needs all byte strings of all lengths, not a list of corrupted samples.", "anchors": ["pyflp/__init__.py:parse", "pyflp/project.py:FileFormat", "pyflp/project.py:VALID_PPQS"]}
{"id": "C05", "title": "Saved header is always consistent", "statement": "Whatever save writes starts with a 22-byte header whose data-chunk size equals the number of bytes that follow, whose channel count is the number of channel-start events and which carries the project's format and PPQ, so parse never rejects a file written by save for a header reason (given a valid PPQ/format and at least one event).", "quantifier": "for every project state for which save succeeds", "why_tests_cant": "Depends on the serialised size of every possible event list after arbitrary edits.", "anchors": ["pyflp/__init__.py:save"]}
{"id": "C06", "title": "Event size property", "statement": "For every event that can be serialised, event.size equals the number of bytes it occupies in the saved file.", "quantifier": "for every event type, id and serialisable value", "why_tests_cant": "All ids x all values x all lengths (variable length prefix grows at 128, 16384, ...).", "anchors": ["pyflp/_events.py:EventBase.size", "pyflp/_events.py:EventBase.__bytes__"]}
{"id": "C07", "title": "Constructor contract of fixed-size events", "statement": "Constructing an event succeeds only if its id is in the range of its type and, for ids below 192, the payload has exactly 1, 2 or 4 bytes according to the id range; otherwise EventIDOutOfRange / InvalidEventChunkSize is raised and nothing is created.", "quantifier": "for every event type, id 0-255 and payload", "why_tests_cant": "Quantifies over all payload lengths.", "anchors": ["pyflp/_events.py:EventBase.__init__", "pyflp/_events.py:EventIDOutOfRange"]}
{"id": "C08", "title": "Length prefix codec", "statement": "The variable-length size prefix written for any payload length is read back as the same number, consumes exactly the bytes written whatever follows it, and no other encoding of the same length is shorter.", "quantifier": "for every natural number and every following byte sequence", "why_tests_cant": "Unbounded numbers; needs induction on the number of 7-bit groups.", "anchors": ["pyflp/_events.py:EventBase.__bytes__", "pyflp/__init__.py:parse"]}
{"id": "C09", "title": "String encoding follows the declared version", "statement": "After a version event, every text event of the file is decoded (and saved back) as UTF-16-LE if the first two version components are at least 11.5 and as ASCII otherwise, except the version text itself, which is always ASCII; a text event of unknown type before any version event raises VersionNotDetected.", "quantifier": "for every file and every version string", "why_tests_cant": "All orders of events and all version numbers.", "anchors": ["pyflp/__init__.py:parse", "pyflp/_events.py:AsciiEvent", "pyflp/_events.py:UnicodeEvent"]}
{"id": "C10", "title": "Text values survive save and load", "statement": "Any text without trailing NUL that the encoding can represent is read back identically after being set and saved, in ASCII and in UTF-16-LE (including characters outside the BMP); a stored payload is reproduced byte for byte iff it is validly encoded and ends in exactly one NUL.", "quantifier": "for every text (any length, any Unicode scalar values) and every payload", "why_tests_cant": "Infinitely many strings; surrogate pairs and embedded NULs are easy to miss.", "anchors": ["pyflp/_events.py:AsciiEvent", "pyflp/_events.py:UnicodeEvent"]}
{"id": "C11", "title": "Unknown events are preserved verbatim", "statement": "Events with ids PyFLP does not know keep id, payload and position through parse and save, whatever their payload.", "quantifier": "for every id without a registered type and every payload of the proper size", "why_tests_cant": "All unknown ids and all payloads.", "anchors": ["pyflp/__init__.py:parse", "pyflp/_events.py:UnknownDataEvent", "pyflp/_events.py:EventEnum._missing_"]}
{"id": "C12", "title": "Truncated trailing chunk", "statement": "A file whose last variable-size chunk announces more bytes than the file contains must not silently load with a shortened payload. (PyFLP violates this: such files load without error and saving writes the shortened length.)", "quantifier": "for every file whose final chunk is cut short", "why_tests_cant": "Every cut point of every file; only a proof shows which cuts are detected and which are not.", "anchors": ["pyflp/__init__.py:parse"]}
{"id": "C13", "title": "Failed save leaves the destination untouched", "statement": "If save raises while serialising (unencodable value, no channels, too large), the destination file keeps its previous content; once the file is being written, a crash leaves it with a prefix of the new content (old content lost), never with mixed content.", "quantifier": "for every project, every previous file content and every crash point", "why_tests_cant": "All crash points and all failing values.", "anchors": ["pyflp/__init__.py:save"]}
{"id": "C14", "title": "Channel count written to the header", "statement": "The channel count in a saved file is the number of channel-start events. Setting Project.channel_count has no influence on the saved file, and a project without any channel (e.g. a score or plugin preset) cannot be saved at all: save raises NoModelsFound.", "quantifier": "for every project and every value assigned to channel_count", "why_tests_cant": "Quantifies over all projects and assigned values.", "anchors": ["pyflp/__init__.py:save", "pyflp/project.py:Project.channel_count", "pyflp/channel.py:ChannelRack.__len__"]}
{"id": "C15", "title": "Views only contain events of their parent, in order", "statement": "Every view obtained from an event tree (subtree, divide, group, separate, subtrees, nested to any depth) contains only events of its parent, without duplicates and in the parent's order.", "quantifier": "for every tree, selector and nesting history", "why_tests_cant": "Arbitrary nesting and arbitrary trees.", "anchors": ["pyflp/_events.py:EventTree.subtree", "pyflp/_events.py:EventTree.divide", "pyflp/_events.py:EventTree.separate", "pyflp/_events.py:EventTree.group", "pyflp/_events.py:EventTree.subtrees"]}
{"id": "C16", "title": "divide partitions", "statement": "divide(separator, ids) yields trees that, concatenated in order, are exactly the parent's events with those ids; every tree but the first starts at a separator and no tree contains a second separator; n>0 separators give n trees, zero separators give one.", "quantifier": "for every tree, separator and id set", "why_tests_cant": "Unbounded trees.", "anchors": ["pyflp/_events.py:EventTree.divide"]}
{"id": "C17", "title": "separate, group and subtrees laws", "statement": "separate(id) yields one singleton per event with that id, in order. group(ids) puts the k-th occurrence of each id into the k-th group. subtrees(select, n) yields at most n trees, whose concatenation plus the unreported tail is exactly the selected events; the events after the last boundary are never yielded.", "quantifier": "for every tree, ids, selector and repeat count", "why_tests_cant": "Unbounded trees and arbitrary selectors.", "anchors": ["pyflp/_events.py:EventTree.separate", "pyflp/_events.py:EventTree.group", "pyflp/_events.py:EventTree.subtrees"]}
{"id": "C18", "title": "Editing the root tree behaves like editing a list", "statement": "On the project's root tree any history of insert(pos, e) and pop(id, k) acts like list insertion before position pos and deletion of the k-th event with that id; root indexes stay 0..n-1 in order; pop raises KeyError/IndexError without changing anything when there is no such event.", "quantifier": "for every initial event list and every finite history of operations", "why_tests_cant": "Arbitrary histories.", "anchors": ["pyflp/_events.py:EventTree.insert", "pyflp/_events.py:EventTree.pop", "pyflp/_events.py:EventTree.remove"]}
{"id": "C19", "title": "Edits through views reach the project", "statement": "Popping an event through a view nested to any depth removes exactly that event from the view and all of its ancestors and keeps the order and indexes of the rest; inserting through a freshly created view puts the event directly before the chosen event in the root, so saving serialises it there.", "quantifier": "for every tree, every nesting depth, every view and position", "why_tests_cant": "Arbitrary depth and positions.", "anchors": ["pyflp/_events.py:EventTree.pop", "pyflp/_events.py:EventTree.insert", "pyflp/_events.py:EventTree._recursive"]}
{"id": "C20", "title": "append extends a tree", "statement": "tree.append(e) should add e as last event of the tree and its ancestors. PyFLP violates this: on every non-empty tree append raises IndexError and changes nothing; on an empty view it puts the event at the very start of the project.", "quantifier": "for every tree and event", "why_tests_cant": "The statement is about all non-empty trees.", "anchors": ["pyflp/_events.py:EventTree.append", "pyflp/_events.py:EventTree.insert", "pyflp/_events.py:EventTree.__iadd__"]}
{"id": "C21", "title": "Repeated insertions through a view", "statement": "After any history of insertions through a view, popping an event through that view should delete that event. PyFLP violates this: after two insertions through the same view, a pop returns one event but deletes another one from the project.", "quantifier": "for every history of insert/pop through views", "why_tests_cant": "Only particular histories of length >= 3 show it.", "anchors": ["pyflp/_events.py:EventTree.insert", "pyflp/_events.py:EventTree.pop", "pyflp/_events.py:IndexedEvent"]}
{"id": "C22", "title": "Sibling views after a pop", "statement": "After popping an event through one view, other live views must not make later edits hit unrelated events. PyFLP violates this: a sibling view that still holds the popped event deletes the event that now has its index.", "quantifier": "for every pair of overlapping views and every history", "why_tests_cant": "Interleavings of edits through two views.", "anchors": ["pyflp/_events.py:EventTree.pop"]}
{"id": "C23", "title": "Equality of trees and models", "statement": "Two trees (and two models of the same type) should compare equal only if they hold equal events. PyFLP compares only root indexes: any two projects with the same number of events compare equal, whatever their contents.", "quantifier": "for every pair of projects", "why_tests_cant": "Quantifies over all pairs of projects.", "anchors": ["pyflp/_events.py:EventTree.__eq__", "pyflp/_events.py:IndexedEvent", "pyflp/_models.py:EventModel.__eq__"]}
{"id": "C24", "title": "Event-bound properties obey the lens laws", "statement": "For properties bound to event ids: reading gives the value of the first event with the first present id (default if none); writing changes exactly that event's value and nothing else, so a following read returns the written value; writing when no such event exists or the property is read-only raises PropertyCannotBeSet and changes nothing.", "quantifier": "for every tree, id list, default and value", "why_tests_cant": "All trees and id lists.", "anchors": ["pyflp/_descriptors.py:PropBase", "pyflp/_descriptors.py:EventProp"]}
{"id": "C25", "title": "Edits are persisted", "statement": "Setting a text, number or flag property that stands for an event, for a field of a struct event or for a field of an element of a list event, through any model view, saving and parsing yields a project in which exactly that event changed, to exactly the value set. (The version and the internal plugin name decide how other events are read: C37, C51. Properties with setters of their own: C36, C37, C39, C40, C48, C49, C63, C70, C72 to C75; for the numbers of VST plugins the claim is false, C74.)", "quantifier": "for every canonical project, event position and in-domain value", "why_tests_cant": "Composition of parse, arbitrary edit, save and parse over all files.", "anchors": ["pyflp/_descriptors.py:EventProp", "pyflp/__init__.py:parse", "pyflp/__init__.py:save"]}
{"id": "C26", "title": "Flag properties set one bit", "statement": "Setting a flag property makes it read back as set (also when inverted) and leaves all other bits of the underlying number unchanged. On Python 3.11+ clearing a flag violates the second half: every bit above the highest flag known to PyFLP is cleared too.", "quantifier": "for every flag set, every stored number and both interpreters' flag semantics", "why_tests_cant": "All stored numbers including bits PyFLP does not know.", "anchors": ["pyflp/_descriptors.py:FlagProp", "pyflp/channel.py:_SamplerFlags", "pyflp/pattern.py:_NoteFlags"]}
{"id": "C27", "title": "Struct fields: guarded writes and framing", "statement": "Writing a struct field raises KeyError if the struct has no such field, PropertyCannotBeSet if the field is absent in the file (older version), and otherwise changes exactly that field; all other fields keep their values.", "quantifier": "for every struct event, key and value", "why_tests_cant": "All struct contents.", "anchors": ["pyflp/_events.py:StructEventBase.__setitem__", "pyflp/_descriptors.py:StructProp"]}
{"id": "C28", "title": "Short struct events from older versions", "statement": "For structured events made of optional fields other than one-byte flags, a payload cut at any field boundary parses with the present fields at their offsets and the missing ones None, and is saved back with exactly the same bytes and length. For structs with optional one-byte flags (playlist tracks, channel parameters) PyFLP violates the second half: every missing flag is written as a zero byte, so the event grows on save.", "quantifier": "for every struct type and every payload prefix on a field boundary", "why_tests_cant": "All payload contents and lengths.", "anchors": ["pyflp/_events.py:StructEventBase", "pyflp/channel.py:ParametersEvent", "pyflp/arrangement.py:TrackEvent"]}
{"id": "C29", "title": "Trailing or partial struct data", "statement": "Saving must not lose payload bytes. Structs that end in a catch-all field preserve every payload of whole fields; for structs without one PyFLP drops everything after the last complete field on save.", "quantifier": "for every struct type and every payload", "why_tests_cant": "All payload lengths.", "anchors": ["pyflp/channel.py:DelayEvent", "pyflp/channel.py:LevelsEvent", "pyflp/_events.py:StructEventBase"]}
{"id": "C30", "title": "Out-of-range values in optional fields", "statement": "Assigning a value that does not fit a struct field must not corrupt other fields. PyFLP violates this: the field is silently left out on save, so that every following field is read from the wrong offset afterwards.", "quantifier": "for every optional field and every out-of-range value", "why_tests_cant": "All fields and all values.", "anchors": ["pyflp/_events.py:StructEventBase", "construct.Optional (library)"]}
{"id": "C31", "title": "List events", "statement": "An event holding an array of fixed-size items yields floor(size/item size) items, item k decoded from bytes [k*s,(k+1)*s); rewriting an item through its model changes exactly these bytes on save; whole-item payloads are saved back unchanged, while a trailing partial item is dropped.", "quantifier": "for every payload length and item index", "why_tests_cant": "Unbounded numbers of items.", "anchors": ["pyflp/_events.py:ListEventBase", "pyflp/_models.py:ItemModel.__setitem__", "pyflp/pattern.py:NotesEvent", "pyflp/mixer.py:MixerParamsEvent"]}
{"id": "C32", "title": "Playlist item size detection", "statement": "A playlist written with 32-byte items must be read as 32-byte items and one with 60-byte items as 60-byte items. PyFLP decides by divisibility by 60: every 60-byte list is read correctly, a 32-byte list is read correctly iff its number of items is not a positive multiple of 15.", "quantifier": "for every number of playlist items", "why_tests_cant": "Number-theoretic statement over all item counts.", "anchors": ["pyflp/arrangement.py:PlaylistEvent"]}
{"id": "C33", "title": "Colors survive save and load", "statement": "Every 4-byte color is reproduced exactly by parse and save, i.e. round(c/255*255)=c in IEEE double arithmetic for every byte.", "quantifier": "for every color", "why_tests_cant": "2^32 colors with rounding in floating point.", "anchors": ["pyflp/types.py:RGBA", "pyflp/_events.py:ColorEvent"]}
{"id": "C34", "title": "Musical times", "statement": "Decoding then encoding a stored time is the identity for every integer; encoding a time whose ticks are a multiple of 5 and decoding it gives the same position normalised to 0-15 beats and 0-235 ticks.", "quantifier": "for every integer / every musical time", "why_tests_cant": "All integers, with float multiplication by 0.2 in the encoder.", "anchors": ["pyflp/_adapters.py:LinearMusical", "pyflp/types.py:MusicalTime"]}
{"id": "C35", "title": "Track height", "statement": "Setting a track height in percent, saving and loading should give the same percentage. PyFLP violates this for 482 of the percentages 0-1000 (e.g. 29% becomes 28%); the result is always the same or one less.", "quantifier": "for every percentage 0..1000", "why_tests_cant": "Float32/float64 rounding for each value.", "anchors": ["pyflp/arrangement.py:HeightAdapter", "pyflp/arrangement.py:Track.height"]}
{"id": "C36", "title": "Tempo", "statement": "Tempo is stored in thousandths of a BPM. Setting an integral tempo in range reads back equal; setting a tempo outside 10-522 (999 for versions 1.4.2 up to 11) raises ValueError and changes nothing; assigning project.tempo to itself must not change the file - PyFLP violates this for 5812 stored values below 1000 BPM (e.g. 16.002 BPM), which decrease by 0.001.", "quantifier": "for every stored tempo, version and assigned value", "why_tests_cant": "Float rounding over the whole tempo range.", "anchors": ["pyflp/project.py:Project.tempo"]}
{"id": "C37", "title": "Version property", "statement": "Setting the version (three or four components) makes project.version read back the same components and, with four, updates the build event; fewer or more components raise ValueError and change nothing.", "quantifier": "for every tuple of non-negative integers", "why_tests_cant": "All tuples of integers; needs decimal print/parse round trip.", "anchors": ["pyflp/project.py:Project.version", "pyflp/types.py:FLVersion"]}
{"id": "C38", "title": "Version comparisons", "statement": "Version-dependent properties must work for every version found in a file. PyFLP violates this: for versions 12.9.1.b max_tracks raises TypeError, for 11.0.0.b, 1.4.2.b and 3.4.0.b the tempo setter does; for all other versions the comparison is the lexicographic one.", "quantifier": "for every version with or without build number", "why_tests_cant": "All version numbers.", "anchors": ["pyflp/types.py:FLVersion", "pyflp/arrangement.py:Arrangements.max_tracks", "pyflp/project.py:Project.tempo"]}
{"id": "C39", "title": "Licensee obfuscation", "statement": "A licensee made of ASCII letters and digits is read back unchanged after being set, for every length up to 74; from the position where code + 26 <= index characters are silently dropped.", "quantifier": "for every ASCII alphanumeric string", "why_tests_cant": "Exponentially many strings, position-dependent arithmetic.", "anchors": ["pyflp/project.py:Project.licensee"]}
{"id": "C40", "title": "PPQ and channel count guards", "statement": "ppq can only ever hold one of the eleven valid values and channel_count never becomes negative; an invalid assignment raises ValueError and changes nothing.", "quantifier": "for every integer assigned, after any history of assignments", "why_tests_cant": "All integers and histories.", "anchors": ["pyflp/project.py:Project.ppq", "pyflp/project.py:Project.channel_count"]}
{"id": "C41", "title": "Time markers", "statement": "Every stored 32-bit marker value is split into a type and a position such that position plus the type's offset (0 for a plain marker, 2^27 for a time signature) is exactly the stored value; the marker is a time signature iff the stored value is at least 2^27. Reading never changes the stored value, and neither type nor position can be assigned.", "quantifier": "for every 32-bit value, type and position", "why_tests_cant": "All 32-bit values.", "anchors": ["pyflp/timemarker.py:TimeMarker"]}
{"id": "C42", "title": "Note keys", "statement": "Reading the key name of a note is injective on 0-131 and equals the note name and octave; assigning an integer key in range stores it, out of range raises ValueError. Assigning a key name raises ValueError for every string, although for natural notes the note has been changed.", "quantifier": "for every integer and every string", "why_tests_cant": "All strings.", "anchors": ["pyflp/pattern.py:Note.key"]}
{"id": "C43", "title": "Patterns collection", "statement": "Iterating patterns partitions the pattern and marker events of the view by the id announced in the last new-pattern event (0 before the first one), patterns in order of first appearance, events in file order; two patterns never share an id. len counts the distinct ids announced: iterating yields that many patterns, and one more exactly when a pattern event precedes the first announcement and id 0 is not announced. Without announcements len raises NoModelsFound while iterating yields one pattern or none. patterns.current is the pattern with the stored number, None if there is none.", "quantifier": "for every event list", "why_tests_cant": "Unbounded interleavings of pattern announcements.", "anchors": ["pyflp/pattern.py:Patterns.__iter__", "pyflp/pattern.py:Patterns.__len__"]}
{"id": "C44", "title": "Playlist items are assigned to tracks", "statement": "The k-th track of an arrangement has exactly the playlist items whose reversed index is max_tracks - 1 - k, in playlist order; so every item whose track exists is on exactly one track, once, and the others on none. An item whose index is at most its base plays the channel with that iid, otherwise the pattern with the difference as iid (the last one of that iid). Nothing is raised if the playlist is readable and every item names something existing.", "quantifier": "for every playlist, track count and version", "why_tests_cant": "Unbounded playlists.", "anchors": ["pyflp/arrangement.py:Arrangement.tracks"]}
{"id": "C45", "title": "Channel rack grouping", "statement": "The channels are the pieces of the project's channel and plugin events between channel starts, the first also taking what precedes its start; number, class and group are those the piece tells; a full iteration yields len(rack) channels. The last channel also receives all plugin events of the mixer, so that its name may be that of a mixer slot, and assigning one assigns the other. Without channels len raises NoModelsFound but iterating KeyError.", "quantifier": "for every event list", "why_tests_cant": "Unbounded event lists.", "anchors": ["pyflp/project.py:Project.channels", "pyflp/channel.py:ChannelRack.__iter__"]}
{"id": "C46", "title": "Mixer inserts", "statement": "The mixer's inserts are the pieces of the insert, slot and plugin events before each Output event, max_inserts at most, numbered from -1: the Output event is attributed to the following insert and what follows the last one is never reported. len counts flags events instead. An insert's parameters are the records with its number, its slots the pieces between slot indexes with the records of their number; without records iterating over the slots raises KeyError.", "quantifier": "for every event list and version", "why_tests_cant": "Unbounded event lists.", "anchors": ["pyflp/mixer.py:Mixer.__iter__", "pyflp/_events.py:EventTree.subtrees"]}
{"id": "C47", "title": "Mixer parameter addressing", "statement": "Every mixer parameter record is attributed to the insert/slot encoded in its 16-bit address (7-bit insert, 6-bit slot) and this decoding is inverse to the encoding; for each insert and id the last record wins.", "quantifier": "for every address and every record list", "why_tests_cant": "All addresses and lists.", "anchors": ["pyflp/mixer.py:MixerParamsEvent"]}
{"id": "C48", "title": "Reverb type and mix", "statement": "Setting the reverb type keeps the mix and vice versa. PyFLP violates the second half: setting mix adds to the stored value, so the mix reads back as set only if it was zero before.", "quantifier": "for every stored value, type and mix", "why_tests_cant": "All stored values.", "anchors": ["pyflp/channel.py:Reverb"]}
{"id": "C49", "title": "Delay modulation tuple", "statement": "Setting mod_x keeps mod_y and vice versa, and reads back the value set.", "quantifier": "for every stored tuple and value", "why_tests_cant": "All values.", "anchors": ["pyflp/channel.py:Delay.mod_x", "pyflp/channel.py:Delay.mod_y"]}
{"id": "C50", "title": "VST wrapper flags", "statement": "Setting a VST flag to true/false should set/clear exactly that flag. PyFLP violates this: setting any flag true sets bit 0, setting it false changes nothing.", "quantifier": "for every flag and stored value", "why_tests_cant": "All stored values.", "anchors": ["pyflp/plugin.py:_VSTFlagProp"]}
{"id": "C51", "title": "Remote controllers", "statement": "parameter should be the low 15 bits of the stored target and controls_vst bit 15. PyFLP always returns 1 and False.", "quantifier": "for every stored value", "why_tests_cant": "All stored values.", "anchors": ["pyflp/controller.py:RemoteController"]}
{"id": "C52", "title": "Replacing a plugin", "statement": "Assigning a plugin to a channel or slot replaces the target's data and wrapper events in place, by the first data and wrapper events of the plugin, in every view of the project; with a named plugin class the target's first internal name event gets the name; no event moves and every other event stays what it was. A target without an internal name refuses a named plugin unchanged. A plugin without wrapper event raises KeyError after the data have been replaced. The events are shared from then on: whatever is assigned later, every property of the two plugins reads the same (so a copy is not independent).", "quantifier": "for every project, pair of slots/channels, plugin and every later sequence of assignments and views", "why_tests_cant": "Aliasing after arbitrary edit histories.", "anchors": ["pyflp/plugin.py:PluginProp"]}
{"id": "C53", "title": "Slicing collections", "statement": "collection[a:b] with integer bounds equals the list slice of its iteration order for all 0<=a, b; an omitted bound raises TypeError and the step is ignored.", "quantifier": "for every collection and bounds", "why_tests_cant": "Unbounded collections.", "anchors": ["pyflp/_models.py:supports_slice"]}
{"id": "C54", "title": "Version tables of the mixer", "statement": "max_inserts and max_slots depend only on the version and are monotone in it; they differ from the documented table: a version equal to a documented change point already gets the next row.", "quantifier": "for every version", "why_tests_cant": "All versions.", "anchors": ["pyflp/mixer.py:Mixer.max_inserts", "pyflp/mixer.py:Mixer.max_slots"]}
{"id": "C55", "title": "Plugin state events follow the internal name", "statement": "A plugin data event is parsed by the type registered for the most recent internal-name event (unknown names give raw bytes), and raw plugin data of unregistered plugins is preserved exactly.", "quantifier": "for every file and plugin name", "why_tests_cant": "All names and payloads.", "anchors": ["pyflp/__init__.py:parse", "pyflp/plugin.py:get_event_by_internal_name"]}
{"id": "C56", "title": "Identifier tables are unambiguous", "statement": "No event id is declared by two enumerations, every id 0-255 gets exactly one event type from parse and that type always accepts the id.", "quantifier": "for every id 0-255 and every version state", "why_tests_cant": "The choice depends on import order of enumerations and on three fallback ranges; every id must be covered.", "anchors": ["pyflp/__init__.py:parse", "pyflp/_events.py:EventEnum"]}
{"id": "C57", "title": "Exceptions of parse and termination", "statement": "parse terminates on every byte string. Of PyFLP's own exceptions it raises only HeaderCorrupted (exactly for an invalid header), VersionNotDetected (only when the events before the failing one are all readable, contain no version and the failing one is a text event) and InvalidEventChunkSize (only when the file ends inside a fixed-size event); it never raises EventIDOutOfRange.", "quantifier": "for all byte strings, both Python generations, with and without the controller module imported", "why_tests_cant": "Tests feed a handful of damaged files; the claim is about which exceptions are impossible for any input, and about termination of greedy loops over arbitrary payloads.", "anchors": ["pyflp/__init__.py:71-173", "pyflp/_events.py:108-127", "pyflp/exceptions.py:44-87"]}
{"id": "C58", "title": "Arrangements collection", "statement": "If the project has n new-arrangement events and m current-arrangement events, iterating arrangements yields min(n, n - 1 + m) arrangements while len says n. When the current-arrangement event follows all arrangements, each is yielded with exactly its own new-arrangement event, and together they hold all arrangement, track and marker events before it, in order. Without that event the last arrangement is lost; before the arrangements it makes the first one empty. arrangements.current is the one at the stored (Python) index, ModelNotFound if out of range, None if not stored; markers before the first arrangement are not part of the view.", "quantifier": "for every event list", "why_tests_cant": "Unbounded interleavings of events; sample files all have the same order of events.", "anchors": ["pyflp/arrangement.py:Arrangements.__iter__", "pyflp/arrangement.py:Arrangements.__len__", "pyflp/arrangement.py:Arrangements.current", "pyflp/project.py:Project.arrangements", "pyflp/_events.py:EventTree.subtrees"]}
{"id": "C59", "title": "Looking models up by index, name or slice", "statement": "patterns[i] is the pattern at position i from 0 (negative and too large indexes raise ModelNotFound); collection[name] is the first model with exactly that name, ModelNotFound if none; channels are found by their own number (the first one with it) or by their display name (name, else internal name); slots likewise; mixer[i] is the insert at position i + 1. collection[a:b] with bounds from 0 is the models at positions a to b - 1, an exception of the iteration coming through; leaving out a bound raises TypeError for a nonempty collection. Hence mixer[0:1] is not [mixer[0]].", "quantifier": "for every project, index, name and pair of slice bounds", "why_tests_cant": "Arbitrary duplicate or missing names and numbers; tests use files with unique ones.", "anchors": ["pyflp/_models.py:supports_slice", "pyflp/pattern.py:Patterns.__getitem__", "pyflp/channel.py:ChannelRack.__getitem__", "pyflp/mixer.py:Mixer.__getitem__", "pyflp/mixer.py:Insert.__getitem__"]}
{"id": "C60", "title": "Children of layers", "statement": "If the channels yielded so far by the rack have all numbers a layer lists, iterating the layer yields one channel per listed number, in the listed order, each the last channel with that number, and len(layer) is their count. At the first listed number that no channel yielded so far has, KeyError is raised after the children before it; so a layer looked up by index cannot be iterated when its children come after it in the rack.", "quantifier": "for every rack, layer and list of children numbers", "why_tests_cant": "Depends on the order of channels and on how far a lazy iterator has run.", "anchors": ["pyflp/channel.py:Layer.__iter__", "pyflp/channel.py:Layer.__len__", "pyflp/channel.py:ChannelRack.__iter__"]}
{"id": "C61", "title": "Loop position", "statement": "loop_pos is the (start, end) of the first playlist selection event; without one, the value of the old loop event; without either, None. An assignment is read back and changes only that event of the project; without either event it raises PropertyCannotBeSet and changes nothing. If the selection event's data stop before its end field, PropertyCannotBeSet is raised but the start has already been changed.", "quantifier": "for every project, view and pair of values", "why_tests_cant": "Partial updates on failure need truncated events that no sample file has.", "anchors": ["pyflp/arrangement.py:Arrangements.loop_pos"]}
{"id": "C62", "title": "Looking and editing in any order", "statement": "After any sequence of looking at a project (making any views of it, of any depth) and assigning values or replacing event contents, in any order, the project is in the state that loading its present events and only looking at them would give: the events keep the ids and the order they were loaded with, every view shows a subsequence of the project's present events, and it makes no difference whether a view by event id was made before or after an edit.", "quantifier": "for every list of events, every history of views and edits, every edit", "why_tests_cant": "Histories are unbounded and views alias each other; a test fixes one order.", "anchors": ["pyflp/_events.py:EventTree", "pyflp/_descriptors.py:PropBase.__set__"]}
{"id": "C63", "title": "Pan, volume and pitch of channels", "statement": "Pan and volume are shown from the levels event if the channel has one, else from the 16-bit event, else from the 8-bit event, else None; pitch only from the levels event. An assignment is shown afterwards, changes that field only (without levels event: each old event the channel has) and leaves the other two as they were; a level the channel lacks raises PropertyCannotBeSet and nothing changes. A level that 32 bits hold survives saving and loading.", "quantifier": "for every project state reached by looking and editing, every channel, every value", "why_tests_cant": "Three storage places in eight combinations, arbitrary history before the assignment.", "anchors": ["pyflp/channel.py:_SamplerInstrument.pan", "pyflp/channel.py:_SamplerInstrument.volume", "pyflp/channel.py:_SamplerInstrument.pitch_shift"]}
{"id": "C64", "title": "Editing playlist items", "statement": "The offsets of a playlist item read back as the pair assigned; no other field, item or event changes. Assigning a channel stores its number; if that is not above the item's pattern base, the tracks then show the item with a channel of that number. Assigning a pattern stores its number above the base; if it is at least 1, the tracks then show the item with a pattern of that number.", "quantifier": "for every project state reached by looking and editing, every arrangement, item, channel and pattern", "why_tests_cant": "Depends on all values of number and base; tests use one file.", "anchors": ["pyflp/arrangement.py:PLItemBase.offsets", "pyflp/arrangement.py:ChannelPLItem.channel", "pyflp/arrangement.py:PatternPLItem.pattern", "pyflp/arrangement.py:Arrangement.tracks"]}
{"id": "C65", "title": "Number of a pattern", "statement": "A pattern's number is that of its announcements. Assigning a number is read back, changes every announcement of that pattern in the project and nothing else. If the number is new and not 0, iterating the patterns again gives the same patterns with the same events in the same order. A pattern that is never announced has no number (KeyError) and an assignment does nothing.", "quantifier": "for every project state reached by looking and editing, every pattern and number", "why_tests_cant": "Any number of interleaved announcements per pattern.", "anchors": ["pyflp/pattern.py:Pattern.iid", "pyflp/pattern.py:Patterns.__iter__"]}
{"id": "C66", "title": "Envelopes, LFOs and tracking of a channel", "statement": "The envelopes of a channel are its envelope events in order under the names Panning, Volume, Mod X, Mod Y, Pitch; its LFOs are the same events under the same names; its trackings are its tracking events under volume, keyboard. Without such an event: None. Envelope and LFO of one name are two views of one event: a field assigned through one is shown by the other, every other field and every other entry reads as before, nothing else in the project changes.", "quantifier": "for every project state reached by looking and editing, every channel, entry, field and value", "why_tests_cant": "Any number of events of these sorts in a channel, any history, aliasing between two dictionaries.", "anchors": ["pyflp/channel.py:_SamplerInstrument.envelopes", "pyflp/channel.py:_SamplerInstrument.lfos", "pyflp/channel.py:_SamplerInstrument.tracking"]}
{"id": "C67", "title": "Dock position and equaliser of an insert", "statement": "An insert is docked in the middle if bit 6 of its flags is set, else right if bit 7 is, else left; None without a flags event, ValueError if the event is too short to hold flags. Gain, frequency and resonance of the three equaliser bands are nine parameters: each shows the last record of it, assigning changes that record's message and nothing else, and the other eight and all other parameters of every insert read as before. A missing record gives KeyError.", "quantifier": "for every project state reached by looking and editing, every insert number, band, field and value", "why_tests_cant": "All flag values and all interleavings of records of inserts.", "anchors": ["pyflp/mixer.py:Insert.dock", "pyflp/mixer.py:InsertEQ", "pyflp/mixer.py:_InsertEQProp"]}
{"id": "C68", "title": "Routes of an insert", "statement": "The routes of an insert are the messages of its parameters with ids from 64 on, in the order in which the ids first occur, whose routing flag at the same position is set. If these ids start 64, 65, 66 ... for as many as there are flags, the routes are exactly the send levels to the inserts whose flag is set, in order. Refuted without that order: a volume record before the sends shifts the pairing, so the volume is shown as a send level. Without a routing event or without parameters: KeyError.", "quantifier": "for every project state, insert number, list of flags and list of records", "why_tests_cant": "All orders of records and all flag lists.", "anchors": ["pyflp/mixer.py:Insert.routes"]}
{"id": "C69", "title": "Creation date and time spent", "statement": "created_on and time_spent show the stored floating-point number of days (after 30 December 1899, or as a duration) in whole microseconds: the nearest one up to 2^-16 of a microsecond, and exactly if the days are a whole number of microseconds. Days beyond what datetime and timedelta hold, and infinity, give OverflowError, NaN gives ValueError; without the event both are None.", "quantifier": "for every stored pair of 64-bit floats, every view", "why_tests_cant": "2^64 stored values, two roundings in the computation.", "anchors": ["pyflp/project.py:Project.created_on", "pyflp/project.py:Project.time_spent"]}
{"id": "C70", "title": "Sample path and data path", "statement": "The sample path of a channel and the data path of the project are the path the stored text says (words between slashes, empty ones and '.' left out; absolute with one slash or exactly two), None without the event. An assigned path is shown afterwards; the event then holds a text that says it, the empty text for the empty path; nothing else changes; a text assigned to data_path is kept as it is except '.'. Without the event PropertyCannotBeSet. Saving and loading keeps the path if its names are storable text without NUL.", "quantifier": "for every project state reached by looking and editing, every stored text, every path", "why_tests_cant": "All texts and paths; the corner cases of pathlib.", "anchors": ["pyflp/channel.py:Sampler.sample_path", "pyflp/project.py:Project.data_path"]}
{"id": "C71", "title": "Time markers", "statement": "The k-th time marker of an arrangement or pattern shows the k-th position, numerator, denominator and name event; there are as many markers as events of the most frequent of the four sorts. If the events of every marker stand together with each sort exactly once, the markers are exactly these groups in order. Assigning name, numerator or denominator of a marker changes the k-th event of that sort only, is shown, and leaves its other attributes and all other markers as they were. Refuted without the grouping: a marker without name shows the name of the next.", "quantifier": "for every project state reached by looking and editing, every view, every number of markers", "why_tests_cant": "Unbounded number of markers and all interleavings of their events.", "anchors": ["pyflp/arrangement.py:Arrangement.timemarkers", "pyflp/pattern.py:Pattern.timemarkers", "pyflp/timemarker.py:TimeMarker", "pyflp/_events.py:EventTree.group"]}
{"id": "C72", "title": "Points of an automation clip: as many as counted, positions are the sums of the steps, edits reach the file and nothing else", "statement": "Iterating an Automation channel gives exactly as many points as the count stored in its event says, each with the height and the tension stored for it. The first position is the first stored step; a later position is the sum of all steps up to it, exactly whenever the sums need no rounding, and is never before the one of the point before when the step between is not negative. Setting value or tension of a point changes that number of that point only: every other number of every point, the positions and all other events stay. After saving and loading, the height is the float (or int) that was set, the tension its single-precision rounding, the other bytes of the file's events are those from before. position cannot be set. The amount of the LFO can be set and saved likewise. An automation without the event has no points.", "quantifier": "for all payloads of the event (any number of points, any bytes), points, assigned floats, ints below 2^53 and amounts, all projects loaded from canonical files, all views and sequences of views and edits", "why_tests_cant": "The stream of a clip has as many points as the user drew and positions are floating-point sums over a prefix of unbounded length; a test looks at one clip and at the values it set.", "anchors": ["pyflp/channel.py:84-119", "pyflp/channel.py:1143-1168", "pyflp/channel.py:1307-1332"]}
{"id": "C73", "title": "Notes and controllers of a pattern: read from where they are stored, an edit reaches the file and nothing else", "statement": "Pattern.notes (controllers) yields, in order, one object per 24 (12) bytes of the pattern's first note (controller) event, none if there is no such event or it is too short; every number of each (position, length, rack channel, group, fine pitch, release, MIDI channel, pan, velocity, mod x and y; position, channel) is the one stored for it, the key is the name of the stored number, slide is bit 3 of the stored flags, the value of a controller the stored single-precision float. Setting one of them to anything that fits, saving and loading again: that property of that note reads as what was set (a controller's value rounded to single precision, also when an int was given), every other property of every other note and every other event is as before.", "quantifier": "for all payloads of the two events (any number of notes, any bytes), all notes, properties and values that fit, all projects loaded from canonical files and all views of them", "why_tests_cant": "Notes are read by a struct repeated until the payload ends; a test with one file checks a few notes and not that an edit of one leaves the bytes of all others alone.", "anchors": ["pyflp/pattern.py:49-88", "pyflp/pattern.py:110-235", "pyflp/pattern.py:261-266", "pyflp/pattern.py:298-309", "pyflp/_events.py:349-405", "pyflp/_models.py:45-70"]}
{"id": "C74", "title": "VST plugin data: read as what the bytes mean; texts, raw data and flags survive saving; numbers do not", "statement": "The data of a VST plugin are a format number followed by entries (number, length, content), and are read as exactly that list: texts (name, file, vendor, fourcc) as UTF-8, MIDI settings and flags as the numbers at their places (as many as are there, the rest absent), everything else as bytes; the data of every canonical project have such a meaning. Setting a text to any storable text, or a raw entry (GUID, state, ...) to any bytes, saving and loading again: that entry reads as what was set and every other entry and every other event is as before. Setting a flag (which wrongly sets bit 0 of the flags, C50) survives saving with everything else unchanged. A number assigned to midi.input, midi.output, midi.pb_range or compatibility flags read as numbers is accepted without error, but then can not be read, and the whole project can not be saved any more: what a user expects of these numbers is refuted. Setting something whose entry is absent has no effect.", "quantifier": "for all payloads, entries and values that fit, all projects loaded from canonical files and all views of them", "why_tests_cant": "The combination of an entry that may occur anywhere in the data, any of its neighbours and the rest of the file is not enumerable; that an assignment makes the project unsavable is only seen when saving after it.", "anchors": ["pyflp/plugin.py:226-340", "pyflp/plugin.py:455-502", "pyflp/plugin.py:510-712", "pyflp/_events.py:260-345"]}
{"id": "C75", "title": "A whole editing session survives saving", "statement": "Open a canonical project, look at it through any views and make any number of edits, in any order: values of events, flags, fields and flags of structs and of list elements, pan, volume and pitch of channels, playlist loop positions, pattern numbers, note keys, mixer parameters and EQ bands, channel, pattern and offsets of playlist items, reverb and delay modulation, paths, texts and raw data of VST plugins - each with a value that suits the place it is stored in. Every such edit succeeds and leaves a project that can be edited further; at any time the project can be saved, the saved file loads, and the loaded project is the edited one: the same events in the same order with the values they had, the same channel count, format and ppq, and every view of the edited project has its counterpart over the loaded one with the same events. Only a member of an enumeration or flags given in the place of a number comes back as that number.", "quantifier": "for all canonical files, all finite sequences of views and edits whose values suit, and all moments of saving, as long as the events together are smaller than 4 GiB", "why_tests_cant": "Sequences of edits of arbitrary length over arbitrary files cannot be enumerated; an edit may leave an event in a state only a later edit or a later save trips over.", "anchors": ["pyflp/_descriptors.py:100-330", "pyflp/_events.py:200-560", "pyflp/__init__.py:100-230", "pyflp/channel.py:480-660", "pyflp/arrangement.py:180-240", "pyflp/plugin.py:430-480"]}
{"id": "C76", "title": "Every declared property works as declared, but for nine", "statement": "The classes of the library declare 243 properties by naming events and members of records. On every project that can be loaded - canonical or not - and every model of the class: the property can be read without an exception; where its event is missing it reads its default and cannot be assigned (PropertyCannotBeSet); where the record is too short to hold the member it reads None and assigning changes nothing and raises; otherwise any assignment is accepted, reads back (flags as booleans), and leaves every other property of the model as it was. Nested models (keyboard, delay, fx, ...) see exactly the events of their ids and read and assign what the model around them holds; those of a single event raise IndexError without it. The exceptions: the seven properties of the arpeggiator always raise KeyError; `muted` of playlist items raises KeyError when read, and assigning it is accepted but never saved; `directx` of plugins is never True in a loaded project and assigning it makes the plugin's flags be left out of the saved file, displacing the page, width and height; `iid` and `index` of a mixer slot are one thing under two names.", "quantifier": "for all files of any bytes that load, all views, all 243 declarations, all models of their classes, all assigned values", "why_tests_cant": "A test tries the properties of a sample file; a wrong member name, id, flag or nested id in any of the declarations shows only on files that have the event, and independence of each pair of properties of a class is a claim over thousands of pairs and all record contents.", "anchors": ["pyflp/_descriptors.py:55-225", "pyflp/channel.py:436-1535", "pyflp/mixer.py:314-570", "pyflp/plugin.py:356-1140", "pyflp/pattern.py:110-330", "pyflp/arrangement.py:176-545", "pyflp/timemarker.py:43-62", "pyflp/project.py:144-330"]}
{"id": "C77", "title": "The plugin of a channel or slot", "statement": "In every project that can be loaded, plugin data is interpreted by the plugin name that comes last before it in the file, and is kept opaque when there is none or the name is unknown. Reading `plugin` of a channel or slot gives None exactly when there is no plugin data or it belongs to a plugin not accepted at that place (an instrument in a slot, an effect in a channel); an opaque plugin when the data is not interpreted; otherwise a plugin object of that class. The object consists of exactly the plugin's data and window events of that channel or slot, in order, all properties declared for its class work on it (C76), and reading it changes nothing. Every interpreted plugin is accepted in channels or in slots.", "quantifier": "for all files of any bytes that load, all channels and slots, all lists of accepted plugin classes, all views", "why_tests_cant": "The state kept while reading the file (the last name seen) connects events arbitrarily far apart, across channels and inserts; a test covers single files in which name and data stand next to each other.", "anchors": ["pyflp/__init__.py:118-166", "pyflp/plugin.py:415-448", "pyflp/channel.py:1445", "pyflp/mixer.py:350-362"]}
{"id": "C78", "title": "Channels by class, shown names, zipped, number of slots", "statement": "The rack's lists of automations, instruments, layers and samplers hold exactly its channels of that class in its order; no channel is in two of them, and only channels of no particular class are in none. On every project that loads: a channel's `zipped` is a boolean, False without its event; the name shown is the channel's name (in its newer event, else the older one), or when that is missing or empty the internal name, None without that. An insert whose parameters are known has as many slots, when iterated, as its length says - except that an insert of length 0 iterates one (empty) slot.", "quantifier": "for all files of any bytes that load, all channels, all racks of any number of channels, all inserts with any events", "why_tests_cant": "Tests look at one file with one kind of channel; empty names, missing events and inserts without slots are corner cases of files that must be combined with all others.", "anchors": ["pyflp/channel.py:1291-1304", "pyflp/channel.py:1599-1629", "pyflp/mixer.py:410-419", "pyflp/_events.py:306-325"]}
{"id": "C79", "title": "Properties are named for what they read", "statement": "Every declared property of a model class reads exactly the event, the member of a record or the flag bit that bears its own name in the format's enumerations, apart from 29 listed properties with other names (such as Insert.bypassed, which is the inverse of the flag EnableEffects). On every project that loads, what is read is the value of the event chosen (the first one with the ids of that name), that member of the record, or whether all bits of the flag are set (not set, for an inverse one) - None where the flags are absent. The ids of an enumeration are distinct and the ids interpreted on loading are exactly those enumerated.", "quantifier": "for all declared properties, all files of any bytes that load, all objects of the class, all views", "why_tests_cant": "There are over 240 properties, declared one by one; a property connected to a neighbouring id or bit reads a plausible value in every file in which both are alike, which is the usual case in a test project.", "anchors": ["pyflp/arrangement.py:47-560", "pyflp/channel.py:71-1650", "pyflp/mixer.py:50-330", "pyflp/pattern.py:40-280", "pyflp/plugin.py:60-130", "pyflp/project.py:60-440"]}
{"id": "C80", "title": "The options of VST plugins", "statement": "In every project that loads - whatever bytes the plugin data are - VST plugin data are split into a type, parts with an id each as long as they can be read, and an ignored rest. Each of the 31 options and texts of a VST plugin (automation, compatibility, midi, processing and ui options, fourcc, guid, name, plugin_path, state, vendor) reads a given bit, byte, 32-bit number or whole of the first part with its id: e.g. `processing.allow_sd` is bit 5 of byte 12 of the settings, `automation.notify_changes` is on when bit 6 of byte 9 is clear. Without that part, reading raises AttributeError. MIDI settings that are too short read None. Assigning a boolean to a flag option reads back as assigned only if it read so before, or if `midi.send_pb` or `compatibility.process_maximum` is switched on (C50).", "quantifier": "for all files of any bytes that load, all VST plugins of channels and slots, all options, all views", "why_tests_cant": "The options share two 32-bit words at odd offsets behind optional fields; a test of one plugin compares a few of them with the values of one file.", "anchors": ["pyflp/plugin.py:225-313", "pyflp/plugin.py:455-502", "pyflp/plugin.py:511-716"]}
{"id": "C81", "title": "Printing models", "statement": "`repr()` of the small models - TimeSignature, TimeMarker, Filter, FX with its reverb, Envelope, Keyboard, Playback, automation points, controllers, the twelve native plugins and so on, 31 classes - succeeds in every project that loads and shows each attribute declared in the class with the value it reads. A Delay can be printed exactly if the channel has the event holding the modulation of the delay; otherwise KeyError is raised. The arpeggio settings of a channel can never be printed: KeyError. A band of an insert's equaliser can be printed exactly if all its three values have records.", "quantifier": "for all files that load, all views, all models of these classes wherever they can be reached", "why_tests_cant": "A test prints the objects of one project, in which events may be present that are missing elsewhere.", "anchors": ["pyflp/_models.py:120-129", "pyflp/channel.py:445-552", "pyflp/channel.py:625-647", "pyflp/channel.py:657-745", "pyflp/timemarker.py:43-81", "pyflp/mixer.py:203-293"]}
{"id": "C82", "title": "When events are equal", "statement": "Two events are equal if and only if they have the same id and hold the same value: the same numbers (ints, bools, enum members and floats are compared as numbers), bytes and texts, member by member; `!=` is the exact opposite and comparing with anything but an event raises TypeError. Among events of all files that load, `==` is symmetric and transitive, and an event equals the one read from the same bytes again exactly if no NaN is compared. Events of single values (numbers, pairs, colours, texts, unknown data) of the same class are equal exactly if they are saved as the same bytes. Equal records read the same in every member.", "quantifier": "for all events; all pairs of files of any bytes that load and all their events", "why_tests_cant": "Equality is defined over all values of 46 classes of events, with floats, nested lists and records; a test compares a few pairs of events.", "anchors": ["pyflp/_events.py:127-135", "pyflp/_events.py:102-125"]}
{"id": "C83", "title": "When models are equal", "statement": "Two models of one class (channels, patterns, inserts and so on) are equal if and only if their events stand at the same places of their files. So a channel, pattern or insert equals what is found at its place when the rack, the patterns or the mixer are gone over again, and differs from all others of its class. Comparing models of different classes, or a model with anything else, raises TypeError, for == and != alike; so `channel in list(project.channels)` finds the channel exactly if all channels before it have its class and raises TypeError otherwise.", "quantifier": "for all pairs of files of any bytes that load, all states reached by making views, all pairs of models, all places in two iterations", "why_tests_cant": "Which models are equal depends on the positions of all events, on how the whole list is split into channels, patterns and inserts and on the classes of all channels before; a test compares a few models.", "anchors": ["pyflp/_models.py:73-82", "pyflp/_events.py:439-445", "pyflp/channel.py:1560-1587", "pyflp/pattern.py:340-355", "pyflp/mixer.py:600-616"]}
{"id": "C84", "title": "A track as a sequence of its items", "statement": "`track[i]` is the item that iterating over the track yields at that place, negative numbers counting from the end, and raises IndexError outside; `track[a:b:s]` has exactly the items at the positions that lie between a and b and a multiple of s away from the start, upwards or downwards, for all a, b and s (negative, missing or out of range) and raises ValueError for s = 0; `track[:]` has all items, `track[::-1]` all of them backwards. The items come in the order of the playlist.", "quantifier": "for all tracks with any number of items, all ints as indexes, all slices with or without start, stop and step; all arrangements and playlists", "why_tests_cant": "Slices have unboundedly many combinations of start, stop, step and length; a test tries a few of them.", "anchors": ["pyflp/arrangement.py:248-267"]}
{"id": "C85", "title": "Printing projects, versions, patterns, notes and markers", "statement": "`str(project.version)` is a text that, assigned to the version, does the same as the version itself, and different versions have different texts. `str(project)` of a loaded project shows its version with at least three numbers and the kind of file. `repr(pattern)` shows the number and name of the pattern and as many notes and controllers as iterating over them yields (KeyError if the pattern has no event for its number). `str(marker)` never fails in a project that loads: position numbers below 2^27 are markers, those from there on signatures with that subtracted, named or unnamed according to the name; a marker without position is printed as a signature. Notes and controllers show the numbers in their place in the event, channels their display name and number. `str(patterns)` shows every announced pattern number once, but raises KeyError if pattern events come before the first number and 0 is not announced; `repr(channel_rack)` shows as many channels as iterating yields and raises NoModelsFound without channels; a layer shows how many children it has; an arrangement shows its number, its name, as many markers as the most frequent of the four kinds of marker events has and as many tracks as there is track data, 1 without any, and raises what going through its tracks raises. `str(mixer)` shows the number of insert flag events (not necessarily the number of inserts iterating yields) and raises NoModelsFound without any; an insert shows its name and its place, the first being -1; a group of channels shows its name, unnamed only if it has no event for it. `repr(track)` never fails in a project that loads and shows the name, the number in the track data (None without track data) and how many items are on the track.", "quantifier": "for all versions of non-negative numbers, all files that load, all views, all patterns, markers, channels, notes (keys below 132) and controllers", "why_tests_cant": "Needs all versions and all projects; a test prints the objects of one project.", "anchors": ["pyflp/types.py:39-43", "pyflp/project.py:153-154", "pyflp/arrangement.py:406-407", "pyflp/timemarker.py:49-58", "pyflp/pattern.py:113-119", "pyflp/pattern.py:224-252", "pyflp/channel.py:1174-1175", "pyflp/pattern.py:318-320", "pyflp/channel.py:1371-1372", "pyflp/channel.py:1541-1542", "pyflp/arrangement.py:355-361", "pyflp/mixer.py:385-386", "pyflp/mixer.py:628-629", "pyflp/channel.py:437-440", "pyflp/arrangement.py:269-270"]}
