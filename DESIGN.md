# Formal model of PyFLP in Rocq (Coq 8.16.1)

The subject is the Python package in `/repo/pyflp` (an FL Studio project file
parser / writer). Nothing of it was run; the model was written by reading it.

## Layout

All Coq files are under `rocq/theories`.

* **Model files** (`M_*.v`): executable Gallina, no proofs. Every definition
  carries a comment with the file and lines it was read from.
* **Specification files** (`S_*.v`): small independent statements of what is
  expected (chunk grammar, header grammar, list semantics of the tree, ...).
  They do not use the functions of the model.
* **Proof files** (`P_*.v`): lemmas.
* **Property files** (`C_*.v`): one theorem or more per property of
  `properties.jsonl`, each with a concrete `Example` showing that the
  hypotheses can be met, and `Print Assumptions`.

## Trusted base

* Coq's kernel (including its `vm_compute` reduction machine).
* Axioms: `Print Assumptions` says "Closed under the global context" for every
  theorem of every `C_*.v` file; no axiom is used at all, neither of the
  standard library nor of our own.
* That the model describes the code. The parts that are not PyFLP itself:
  - **Python**: unbounded ints are `Z`; `bytes` are `list Z` with elements
    0..255; `str` are lists of code points; exceptions are values of the
    inductive type `exn` (M_Base). Object identity and aliasing are modelled by
    a heap (M_Tree: events, IndexedEvents as cells, trees) wherever the code
    relies on them. Generators are run to their end; what a partly run
    generator has yielded is modelled where it matters (`gen`, layers C60).
    The step of a slice is ignored, as in the code. `int(text)` is modelled for
    ASCII digits, whitespace, sign and underscores only. Whether a code point
    is alphanumeric (`str.isalnum`, used by the licensee) is an arbitrary
    function `alnum`; `en_py311` says whether Python is 3.11 or later
    (complement of `IntFlag`); theorems hold for both.
  - **construct 2.10**: the combinators used by PyFLP are modelled from the
    library's documented behaviour (`VarInt`, fixed-width integers, `Flag`,
    `Bytes`, `GreedyBytes`, `GreedyString`, `Struct`, `Optional` = `Select(x,
    Pass)` with its swallow-all-exceptions parse *and* build, `GreedyRange`,
    `PrefixedArray`, `Prefixed`, `Switch`, `If`, `Computed`, adapters).
    `.compile()` is taken to preserve the interpreted semantics.
  - **sortedcontainers.SortedList**: list kept sorted by the index field, with
    `add` inserting to the right of equal elements and `remove` deleting the
    first equal element.
  - **IEEE-754**: M_Float has its own binary32/binary64 decoding, encoding,
    rounding to nearest even, `+`, `*`, `/` of doubles on exact dyadic numbers
    (`m * 2^e`), checked against an independent definition of rounding on the
    rationals (S_Real, P_Round). NaN payloads made by arithmetic are a canonical
    NaN. `math.log2` and `2**x` are *not* modelled: functions depending on them
    take arbitrary functions `en_log2`, `en_exp2`.
  - **datetime, pathlib**: `timedelta(days=x)` as CPython computes it (whole days
    exactly, the fraction as a float, rounded half to even); a `datetime` is the
    microseconds since the Delphi epoch with its range. `Path(s)` and `str(p)` of
    PurePosixPath: root of 0, 1 or 2 slashes and the parts.
  - **Imports**: `en_ctrl` says whether `pyflp.controller` has been imported
    (`pyflp` itself does not import it), which decides whether its event ids
    are known; theorems hold for both.
  - **Equality** (C82): `construct.Container.__eq__` compares the keys that do
    not start with an underscore, `ListContainer` is compared as a list; values
    are compared as separate objects (a container is equal to itself whatever it
    holds, which matters for NaN only).

## Not modelled

the characters of values printed by `__repr__`/`__str__` (M_Repr and M_Print have the values shown), `__repr__` of slots, samplers, VST plugins and event trees, docs, warnings, the calendar of `datetime`, `pathlib` on
Windows and beyond what M_Models needs, the `fastenum` speed-up, reading
and writing of files by the OS except as described for C13 (M_Save: the
destination is created or emptied, then written by an arbitrary number of partial
writes).

Simplifications inside modelled functions (also said at the definition):
tuples assigned to a colour are taken to be `RGBA` objects; the parameter
records of the mixer are looked up in the event as it is now, not in the copy
`items_` made when the event was created (differs only after someone changed
the address of a record); a pattern number that is not an int stops the
iteration with TypeError in the model (it would become a dict key); a tempo is
an int or a float; an arrangement's dictionary of channels holds all channels.

## Which code is where

| model | code |
|-------|------|
| M_Base | values, exceptions (`exceptions.py`), `int(str)`, dictionaries |
| M_Float, M_Text | binary32/64; strict ASCII and UTF-16-LE codecs |
| M_Construct | construct's combinators |
| M_Structs | every `STRUCT` of the code base, adapters (`_adapters.py`), colours, flags |
| M_Events | event classes: constructor, `__bytes__`, `size` (`_events.py`) |
| M_Parse | event id tables of all modules, plugin names, `parse` and the bytes made by `save` (`__init__.py`) |
| M_Save | `save` as seen from the destination file |
| M_Tree | `EventTree`, `IndexedEvent` (`_events.py:387-601`) on a heap |
| M_Prop | `_descriptors.py` (EventProp, StructProp, FlagProp, NestedProp, defaults, read-only), `ItemModel`, `supports_slice` |
| M_Custom | track colour property |
| M_Project | `Project`: version, tempo, licensee, ppq, channel_count, format, max_tracks; save |
| M_Items | time markers, note keys, reverb, delay modulation, remote controllers, VST and wrapper options, mixer parameters, limits of the mixer |
| M_Collections | views of the project; patterns, channel rack, layers, mixer, inserts, slots, arrangements, tracks with their items, loop position, plugins, lookup and slices |
| M_Models | levels of channels, envelopes, LFOs, tracking, automation points, numbers of patterns, notes and controllers, playlist items, insert dock, equaliser, routes, dates, paths |
| M_Markers | time markers of arrangements and patterns |
| M_Api | the table of the 243 EventProp, StructProp and FlagProp declarations and of the NestedProp ones, with the classes they are inherited by |
| M_VstApi | the table of the 31 declarations of VST options and texts (_VSTPluginProp, _VSTFlagProp) |
| M_Equal | `==` and `!=` of events, with construct's equality of containers |
| M_Compare | `==`, `!=` and `in` for models (classes by name, Python's order of trying reflected methods folded in) |
| M_Track | a track as a sequence: indexing, slicing, iteration and length, with Python's slicing of lists |
| M_ReprEq | printing an insert's equaliser and its bands |
| M_Print | str() and repr() of versions, projects, patterns, notes, controllers, markers, time signatures, channels (as literal parts and values) |
| M_PrintAll | str() and repr() of the patterns, the channel rack, layers, arrangements, tracks, the mixer, inserts and channel groups |
| M_Repr | which values `ModelReprMixin.__repr__` shows and when it raises (not the text) |

Specifications: S_Canon (canonical payloads), S_File (chunk and header grammar),
S_Domain (values that can be stored), S_Tree (trees as lists), S_Prop, S_Layout
(layout of a struct as a list of fields), S_Real (rounding), S_Project, S_Items,
S_Collections, S_Models, S_Automation, S_Notes, S_Vst, S_Edits,
S_Api (members of records, where models live), S_Names (members of the enumerations, properties named otherwise), S_VstApi (parts of VST plugin data, where each option stands), S_Equal (when two values are the same), S_Track (which positions a slice has).

## Plan per property

| id | property | how |
|----|----------|-----|
| C01 | Byte-for-byte null test | Files as byte lists; `parse` and `save` modelled loop by loop over a construct-combinator model. Specification: an inductive chunk grammar plus per-type payload canonicity. Proved by induction on the event loop, as an iff. |
| C02 | Saved projects load back unchanged | Induction over the event list against the same two functions; domain = values whose encoding decodes to themselves, characterised per event type. |
| C03 | Chunk framing | Refinement of the byte loop to a list of (id,payload) chunks given by an independent encoder. |
| C04 | Header validation is exact | Independent predicate on byte lists; iff by case analysis of every branch. |
| C05 | Saved header is always consistent | Direct computation on the output of `save` for every project state. |
| C06 | Event size property | Case analysis on id range, VarInt length lemma. |
| C07 | Constructor contract of fixed-size events | Case analysis of the constructor for every class. |
| C08 | Length prefix codec | Strong induction on the number (VarInt). |
| C09 | String encoding follows the declared version | Fold over the event loop; state machine specification of the current encoding. |
| C10 | Text values survive save and load | Full models of the strict ASCII and UTF-16-LE codecs on code-point lists. |
| C11 | Unknown events are preserved verbatim | Corollary of C01/C03 restricted to ids without registered type. |
| C12 | Truncated trailing chunk | Refutation by a family of files (every cut of a final data chunk), plus the positive part: cuts inside fixed-size events, ids or length prefixes are rejected. |
| C13 | Failed save leaves the destination untouched | File system modelled as path->contents with an open/truncate/write trace; all crash points. |
| C14 | Channel count written to the header | From C05 plus model of ChannelRack.__len__. |
| C15 | Views only contain events of their parent, in order | Heap model of EventTree/IndexedEvent with aliasing; invariant over histories of view creations. |
| C16 | divide partitions | List induction, lifted to the heap. |
| C17 | separate, group and subtrees laws | List induction, lifted to the heap. |
| C18 | Editing the root tree behaves like editing a list | Simulation between the heap model of a root tree and a plain list; induction over histories. |
| C19 | Edits through views reach the project | Heap invariant (shared cells, root indexes 0..n-1); one pop / one insert through a view of any depth. |
| C20 | append extends a tree | Theorem for all trees + refutation witness. |
| C21 | Repeated insertions through a view | Refutation by a concrete history evaluated in the heap model. |
| C22 | Sibling views after a pop | Refutation by a concrete history; positive theorem when no other view holds the event. |
| C23 | Equality of trees and models | Iff theorem on index lists + refutation witness. |
| C24 | Event-bound properties obey the lens laws | Heap of events; frame lemmas. |
| C25 | Edits are persisted | Composition of C02 with C24. |
| C26 | Flag properties set one bit | Z bit arithmetic; IntFlag complement modelled for Python <= 3.10 and >= 3.11. |
| C27 | Struct fields: guarded writes and framing | Association-list lemmas. |
| C28 | Short struct events from older versions | Combinator-level theorem (Optional/Struct) instantiated at every struct of the code base. |
| C29 | Trailing or partial struct data | Combinator-level theorem + refutation witnesses. |
| C30 | Out-of-range values in optional fields | Refutation at a real struct, plus the general shape theorem. |
| C31 | List events | GreedyRange theorem for fixed-size items. |
| C32 | Playlist item size detection | Arithmetic on lengths; iff. |
| C33 | Colors survive save and load | IEEE binary64 (M_Float), exhaustive over 256 bytes inside the kernel, lifted to all colors. |
| C34 | Musical times | Z arithmetic for decode; exact dyadic rounding argument for the factor 0.2. |
| C35 | Track height | M_Float evaluation; finite domain, kernel computation lifted with forallb. |
| C36 | Tempo | Exact dyadic arithmetic for the stored range, guards by case analysis. |
| C37 | Version property | Decimal printing/parsing model with round-trip proof. |
| C38 | Version comparisons | Tuple comparison modelled with None; iff on the raising versions. |
| C39 | Licensee obfuscation | Position-dependent arithmetic, induction on the string. |
| C40 | PPQ and channel count guards | Invariant over assignment histories. |
| C41 | Time markers | Z arithmetic. |
| C42 | Note keys | Finite table plus string-prefix semantics for all strings. |
| C43 | Patterns collection | List induction. |
| C44 | Playlist items are assigned to tracks | List induction. |
| C45 | Channel rack grouping | List induction + refutation witness. |
| C46 | Mixer inserts | From C17. |
| C47 | Mixer parameter addressing | Bit arithmetic, list induction. |
| C48 | Reverb type and mix | Arithmetic + refutation. |
| C49 | Delay modulation tuple | Arithmetic. |
| C50 | VST wrapper flags | Bit arithmetic + refutation. |
| C51 | Remote controllers | Theorem for all stored values. |
| C52 | Replacing a plugin | Heap model; frame lemma + refutation by aliasing history. |
| C53 | Slicing collections | List induction. |
| C54 | Version tables of the mixer | Lexicographic order lemmas. |
| C55 | Plugin state events follow the internal name | Fold over the event loop. |
| C56 | Identifier tables are unambiguous | Finite check over 0..255 in the kernel, lifted. |
| C57 | Exceptions of parse and termination | Case analysis of every step; the fuel of the model's loops never runs out. |
| C58 | Arrangements collection | List induction over the selection automaton; refutations for unusual orders. |
| C59 | Looking models up by index, name or slice | Specification by first match; list induction. |
| C60 | Children of layers | List induction over the lazy dictionary. |
| C61 | Loop position | Frame lemmas of the heap. |
| C62 | Looking and editing in any order | Replay of recorded selections; induction over the history. |
| C63 | Pan, volume and pitch of channels | Frame lemmas of the heap; composition with C25. |
| C64 | Editing playlist items | Frame lemmas composed with C44. |
| C65 | Number of a pattern | Renaming lemma for the partition of C43; heap frame. |
| C66 | Envelopes, LFOs and tracking of a channel | P_Models, C_Dicts: trees made by separate |
| C67 | Dock position and equaliser of an insert | C_Inserts over the record lemmas of P_Items |
| C68 | Routes of an insert | C_Inserts: induction over records |
| C69 | Creation date and time spent | P_Dates over the float lemmas of P_Round, C_Dates |
| C70 | Sample path and data path | C_Paths: words of a text as an inductive relation |
| C71 | Time markers | C_Markers over C17_group |
| C72 | Points of an automation clip: as many as counted, positions are the sums of the steps, edits reach the file and nothing else | reading: induction over points with the stream of the parse; edits: bytes of the point replaced; saved with edit_saved |
| C73 | Notes and controllers of a pattern: read from where they are stored, an edit reaches the file and nothing else | fields by layout of records; edit: bytes of the field replaced in the list of records (induction over records); saved with the theorem about one event edited |
| C74 | VST plugin data: read as what the bytes mean; texts, raw data and flags survive saving; numbers do not | meaning as an inductive relation; parse and build by induction over the entries; saved with the theorem about one event edited |
| C75 | A whole editing session survives saving | invariant of sessions: every event is one that its own bytes, read again, would give; each setter shown to keep it; composed with the file round trip |
| C76 | Every declared property works as declared, but for nine | extraction of the declarations into a table; members of every record by induction over its fields; a decidable check of the whole table (every member exists and is a flag where needed, every pair is apart) lifted to all projects; the exceptions refuted for all projects |
| C77 | The plugin of a channel or slot | induction over the loop that reads the events with the last name as invariant; subtree of the plugin's events is a view; at_home of the plugin links to the table of C76 |
| C78 | Channels by class, shown names, zipped, number of slots | text events of loaded projects hold text (invariant of the loop that reads the events); filters by class; number of pieces of a division |
| C79 | Properties are named for what they read | decision procedure over the table of declared properties, lifted to all loaded projects by the invariant of C76 |
| C80 | The options of VST plugins | inversion of the parser of plugin data for any bytes; bits of little-endian words; decision procedure that declarations and places agree |
| C81 | Printing models | every attribute reads without an exception (C76), custom getters succeed on loaded numbers; first failing attribute otherwise |
| C82 | When events are equal | decision of Python equality by induction over nested values; uniqueness of record keys for every construct; injectivity of colour channels up to rounding |
| C83 | When models are equal | positions of the root list are injective; pieces of a list without repetitions are disjoint and not empty; the cut of a list into pieces is unique |
| C84 | A track as a sequence of its items | positions of a slice as an arithmetic progression; division lemma for their number; induction over lists |
| C85 | Printing projects, versions, patterns, notes and markers | decimal print/parse round trip; case analysis on the events of a view; kinds fixed by id |
