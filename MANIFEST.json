{
 "claims": [
  {
   "property": "C01",
   "status": "proved",
   "theorems": [
    "C01_null_test"
   ],
   "note": "Iff against the byte-level grammar of S_File/S_Canon, for every parseable file."
  },
  {
   "property": "C02",
   "status": "proved",
   "theorems": [
    "C02_save_load",
    "C02_scalar_values",
    "C02_all_values"
   ],
   "note": "Whole project: C02_save_load; the encodable values are characterised exactly for scalar classes (C02_scalar_values) and as the decoded canonical payloads for every class (C02_all_values)."
  },
  {
   "property": "C03",
   "status": "proved",
   "theorems": [
    "C03_framing",
    "C03_pointwise"
   ],
   "note": "C03_framing is an iff for every list of chunks; C03_pointwise spells it out per chunk."
  },
  {
   "property": "C04",
   "status": "proved",
   "theorems": [
    "C04_header",
    "C04_no_event_first"
   ],
   "note": "Iff for all byte strings."
  },
  {
   "property": "C05",
   "status": "proved",
   "theorems": [
    "C05_saved_header"
   ],
   "note": "For every project whose event ids are bytes."
  },
  {
   "property": "C06",
   "status": "proved",
   "theorems": [
    "C06_size",
    "C06_total"
   ],
   "note": "For events obtained from parse with an arbitrary new value; C06_limit shows why a struct class constructed by hand with an id below 192 is excluded."
  },
  {
   "property": "C07",
   "status": "proved",
   "theorems": [
    "C07_numeric",
    "C07_all"
   ],
   "note": "C07_numeric is a complete case distinction for the ten numeric classes; C07_all gives both exceptions as iffs for every class."
  },
  {
   "property": "C08",
   "status": "proved",
   "theorems": [
    "C08_round_trip",
    "C08_total",
    "C08_shortest"
   ],
   "note": "Includes uniqueness of the shortest encoding."
  },
  {
   "property": "C09",
   "status": "proved",
   "theorems": [
    "C09_text_class",
    "C09_version_ascii",
    "C09_saved",
    "C09_version_first"
   ],
   "note": ""
  },
  {
   "property": "C10",
   "status": "proved",
   "theorems": [
    "C10_ascii",
    "C10_utf16",
    "C10_payload"
   ],
   "note": ""
  },
  {
   "property": "C11",
   "status": "proved",
   "theorems": [
    "C11_unknown_kept",
    "C11_unknown_value"
   ],
   "note": "Every position of every file; C11_unknown_value gives the value."
  },
  {
   "property": "C12",
   "status": "proved",
   "theorems": [
    "C12_cut_accepted",
    "C12_nothing_else",
    "C12_refuted"
   ],
   "note": "The property is violated by the code: C12_refuted, with the exact behaviour in C12_cut_accepted and C12_nothing_else."
  },
  {
   "property": "C13",
   "status": "proved",
   "theorems": [
    "C13_failed_save",
    "C13_crash_points"
   ],
   "note": "All crash points, pieces of any sizes."
  },
  {
   "property": "C14",
   "status": "proved",
   "theorems": [
    "C14_count_ignored",
    "C14_no_channels",
    "C14_count_written"
   ],
   "note": ""
  },
  {
   "property": "C15",
   "status": "proved",
   "theorems": [
    "C15_views",
    "C15_subtree"
   ],
   "note": "Any history of view creation of any of the five kinds (C15_views); C15_subtree for one view of any ordered tree."
  },
  {
   "property": "C16",
   "status": "proved",
   "theorems": [
    "C16_divide",
    "C16_concat",
    "C16_starts"
   ],
   "note": "C16_divide is the full characterisation; C16_concat and C16_starts are the readable consequences."
  },
  {
   "property": "C17",
   "status": "proved",
   "theorems": [
    "C17_separate",
    "C17_group",
    "C17_subtrees"
   ],
   "note": "group for distinct ids, as the library calls it."
  },
  {
   "property": "C18",
   "status": "proved",
   "theorems": [
    "C18_root_edits",
    "C18_failed_pop"
   ],
   "note": "Simulation against list editing for all histories."
  },
  {
   "property": "C19",
   "status": "proved",
   "theorems": [
    "C19_fresh",
    "C19_pops",
    "C19_insert"
   ],
   "note": "All depths; pops as histories, insertion for views in step (C19_fresh: every view of a parsed project is)."
  },
  {
   "property": "C20",
   "status": "proved",
   "theorems": [
    "C20_append_fails",
    "C20_append_empty",
    "C20_append_refuted"
   ],
   "note": "The code violates the intended law on every non-empty tree: C20_append_fails, C20_append_refuted."
  },
  {
   "property": "C21",
   "status": "proved",
   "theorems": [
    "C21_one_insert",
    "C21_two_inserts_refuted"
   ],
   "note": "Violated after two insertions (C21_two_inserts_refuted); C21_one_insert proves the part that holds."
  },
  {
   "property": "C22",
   "status": "proved",
   "theorems": [
    "C22_unrelated_views",
    "C22_sibling_refuted"
   ],
   "note": "Violated (C22_sibling_refuted); C22_unrelated_views proves which views stay valid."
  },
  {
   "property": "C23",
   "status": "proved",
   "theorems": [
    "C23_equality",
    "C23_equality_refuted"
   ],
   "note": "Violated: C23_equality gives the exact criterion the code uses, after any edits."
  },
  {
   "property": "C24",
   "status": "proved",
   "theorems": [
    "C24_get",
    "C24_chosen",
    "C24_set",
    "C24_refused",
    "C24_single"
   ],
   "note": "All trees; C24_set for every view of a loaded project, including what other views see."
  },
  {
   "property": "C25",
   "status": "proved",
   "theorems": [
    "C25_item_written",
    "C25_event_property",
    "C25_flag_property",
    "C25_struct_property",
    "C25_item_property",
    "C25_struct_flag",
    "C25_item_flag",
    "C25_storable",
    "C25_written"
   ],
   "note": "Event-bound properties (numbers, texts, raw data), flags of numeric events, fields and flags of struct events and of list elements (C25_written, C25_item_written: any accepted form of value), through every view. The statement was narrowed to these properties: those with setters of their own are in C36, C37, C39, C40, C48, C49, C63, C70, C72-C75, and for VST numbers and flags the claim is refuted (C74_refuted, C50). Events 199 and 201 are excluded because they decide how others are read."
  },
  {
   "property": "C26",
   "status": "proved",
   "theorems": [
    "C26_set",
    "C26_other_bits",
    "C26_other_bits_refuted",
    "C26_absent"
   ],
   "note": "C26_set gives exactly which bits change; violated from Python 3.11 on (C26_other_bits_refuted), C26_other_bits proves where it holds; C26_absent: TypeError for absent fields."
  },
  {
   "property": "C27",
   "status": "proved",
   "theorems": [
    "C27_struct",
    "C27_item"
   ],
   "note": ""
  },
  {
   "property": "C28",
   "status": "proved",
   "theorems": [
    "C28_read",
    "C28_classes",
    "C28_readable",
    "C28_saved",
    "C28_same_bytes",
    "C28_refuted"
   ],
   "note": "Reading for all thirteen optional-field classes; the second half is violated for classes with one-byte truth values (C28_refuted), C28_saved gives the exact bytes for every class."
  },
  {
   "property": "C29",
   "status": "proved",
   "theorems": [
    "C29_kept",
    "C29_all_kept",
    "C29_dropped",
    "C29_classes",
    "C29_every_payload",
    "C29_refuted",
    "C29_misread"
   ],
   "note": "C29_kept/C29_dropped give the exact saved bytes; the loss is shown by C29_refuted. C29_misread: a payload cut inside a field is even misread when a smaller field follows."
  },
  {
   "property": "C30",
   "status": "proved",
   "theorems": [
    "C30_accepted",
    "C30_misread",
    "C30_refuted"
   ],
   "note": "The property is violated: C30_refuted for a whole project; C30_accepted and C30_misread characterise the damage for every field and every value that does not fit; required fields make the save fail instead."
  },
  {
   "property": "C31",
   "status": "proved",
   "theorems": [
    "C31_read",
    "C31_sizes",
    "C31_saved",
    "C31_whole",
    "C31_write",
    "C31_routing"
   ],
   "note": "All five list classes; C31_routing for the byte-per-element class."
  },
  {
   "property": "C32",
   "status": "proved",
   "theorems": [
    "C32_60",
    "C32_32",
    "C32_refuted",
    "C32_unusable"
   ],
   "note": "C32_32 is an iff; C32_refuted is the smallest case."
  },
  {
   "property": "C33",
   "status": "proved",
   "theorems": [
    "C33_reproduced",
    "C33_assigned",
    "C33_track_read",
    "C33_track_saved"
   ],
   "note": "Every 4-byte colour event and every stored track colour; assigned channels between 0 and 1 are stored as the nearest byte."
  },
  {
   "property": "C34",
   "status": "proved",
   "theorems": [
    "C34_stored",
    "C34_codec",
    "C34_saved"
   ],
   "note": "C34_codec is about every integer; C34_saved is the whole path: assign, save, load."
  },
  {
   "property": "C35",
   "status": "proved",
   "theorems": [
    "C35_saved",
    "C35_wrong",
    "C35_refuted"
   ],
   "note": "Violated: C35_refuted (29% becomes 28%), C35_wrong counts the 482 percentages. C35_saved proves the result is the same or one less."
  },
  {
   "property": "C36",
   "status": "proved",
   "theorems": [
    "C36_set",
    "C36_integral",
    "C36_range_int",
    "C36_range_float",
    "C36_old_float",
    "C36_saved",
    "C36_self",
    "C36_self_refuted"
   ],
   "note": "Setting (ints and all finite floats, with rounding bounds), whole tempos read back, range errors including NaN and infinities, saving. Self-assignment: stays or drops by 1/1000, with a witness for the drop; the count 5812 was measured outside the proof."
  },
  {
   "property": "C37",
   "status": "proved",
   "theorems": [
    "C37_set",
    "C37_get",
    "C37_forms",
    "C37_refused",
    "C37_saved",
    "C37_crossing_refuted"
   ],
   "note": "Setting, forms, refusals and saving within one side of 11.5; C37_crossing_refuted shows texts change when 11.5 is crossed."
  },
  {
   "property": "C38",
   "status": "proved",
   "theorems": [
    "C38_order",
    "C38_max_tracks",
    "C38_max_tracks_fails",
    "C38_tempo_fails",
    "C38_licensee_fails",
    "C38_refuted"
   ],
   "note": "Order is lexicographic where defined; TypeError for every clashing version (12.9.1.b, 11.0.0.b, 1.4.2.b, 3.4.0.b with floats, 1.3.9.b licensee); C38_refuted is a loadable project of such a version."
  },
  {
   "property": "C39",
   "status": "proved",
   "theorems": [
    "C39_kept",
    "C39_stored",
    "C39_refuted"
   ],
   "note": "str.isalnum is a parameter, constrained on ASCII only."
  },
  {
   "property": "C40",
   "status": "proved",
   "theorems": [
    "C40_guard",
    "C40_assign",
    "C40_saved",
    "C40_assigned"
   ],
   "note": "Guards after any history; saved ppq and format are reloaded, the assigned channel count is not written."
  },
  {
   "property": "C41",
   "status": "proved",
   "theorems": [
    "C41_split",
    "C41_absent",
    "C41_fixed"
   ],
   "note": "Split into type and position for every stored value; absent event gives None; no sequence of assignments to a marker changes its position or type."
  },
  {
   "property": "C42",
   "status": "proved",
   "theorems": [
    "C42_name",
    "C42_injective",
    "C42_set_number",
    "C42_set_range",
    "C42_set_text",
    "C42_own_name_refuted"
   ],
   "note": "Names on 0-131, injectivity for all keys >= 0, numbers stored or refused; every text raises ValueError (natural notes are stored first), so the name just read cannot be assigned: C42_own_name_refuted."
  },
  {
   "property": "C43",
   "status": "proved",
   "theorems": [
    "C43_partition",
    "C43_each",
    "C43_len",
    "C43_none",
    "C43_iid",
    "C43_current",
    "C43_view",
    "C43_loaded"
   ],
   "note": "Partition, count, absence, uniqueness of ids, current and the view; in parsed files iterating never fails (C43_loaded)."
  },
  {
   "property": "C44",
   "status": "proved",
   "theorems": [
    "C44_tracks",
    "C44_items",
    "C44_once",
    "C44_total"
   ],
   "note": "Items by track with what they play, once each; no exception for readable playlists."
  },
  {
   "property": "C45",
   "status": "proved",
   "theorems": [
    "C45_pieces",
    "C45_channel",
    "C45_len",
    "C45_none",
    "C45_last",
    "C45_refuted",
    "C45_loaded"
   ],
   "note": "Pieces, classes, groups, len; C45_last and C45_refuted show the last channel taking the mixer's plugin events."
  },
  {
   "property": "C46",
   "status": "proved",
   "theorems": [
    "C46_inserts",
    "C46_count",
    "C46_output",
    "C46_params",
    "C46_slots"
   ],
   "note": "Inserts, their count, Output shifted by one insert, parameters and slots."
  },
  {
   "property": "C47",
   "status": "proved",
   "theorems": [
    "C47_address",
    "C47_own",
    "C47_none",
    "C47_slot",
    "C47_slot_refuted",
    "C47_missing"
   ],
   "note": "Addresses decode inversely to 64*insert+slot; last record wins for reading and assigning, everything else unchanged. Slot parameters always raise AttributeError: C47_slot_refuted."
  },
  {
   "property": "C48",
   "status": "proved",
   "theorems": [
    "C48_read",
    "C48_type",
    "C48_mix",
    "C48_mix_refuted",
    "C48_absent",
    "C48_saved"
   ],
   "note": "Type assignment keeps the mix; mix assignment adds to the stored value and reads back iff the mix was 0: C48_mix_refuted."
  },
  {
   "property": "C49",
   "status": "proved",
   "theorems": [
    "C49_mod_x",
    "C49_mod_y",
    "C49_absent",
    "C49_saved"
   ],
   "note": "Both halves, through any view, and in the saved file."
  },
  {
   "property": "C50",
   "status": "proved",
   "theorems": [
    "C50_result",
    "C50_readback",
    "C50_exact",
    "C50_refuted"
   ],
   "note": "The code sets bit 0 or nothing, whatever the flag: C50_result says what is stored, C50_readback and C50_exact when that happens to be right, C50_refuted is a witness."
  },
  {
   "property": "C51",
   "status": "proved",
   "theorems": [
    "C51_always",
    "C51_absent",
    "C51_refuted"
   ],
   "note": "Always 1 and False: C51_always, with a witness in C51_refuted."
  },
  {
   "property": "C52",
   "status": "proved",
   "theorems": [
    "C52_set",
    "C52_unnamed",
    "C52_refused",
    "C52_half",
    "C52_shared",
    "C52_refuted",
    "C52_loaded"
   ],
   "note": "Exact effect on every cell of every view (C52_set, C52_unnamed), refusals (C52_refused, C52_half), aliasing for all later uses (C52_shared); the copy is not independent (C52_refuted)."
  },
  {
   "property": "C53",
   "status": "proved",
   "theorems": [
    "C53_slice",
    "C53_open_ended",
    "C53_negative"
   ],
   "note": "Also what negative bounds do."
  },
  {
   "property": "C54",
   "status": "proved",
   "theorems": [
    "C54_build",
    "C54_monotone",
    "C54_up_to",
    "C54_since_refuted"
   ],
   "note": "Dependence on three numbers only, monotonicity, and where the documented table is not followed under either reading."
  },
  {
   "property": "C55",
   "status": "proved",
   "theorems": [
    "C55_plugin_class",
    "C55_no_name"
   ],
   "note": ""
  },
  {
   "property": "C56",
   "status": "proved",
   "theorems": [
    "C56_declared_once",
    "C56_accepted",
    "C56_parse_accepts"
   ],
   "note": ""
  },
  {
   "property": "C57",
   "status": "proved",
   "theorems": [
    "C57_exceptions",
    "C57_terminates"
   ],
   "note": "Includes termination: the model's fuel is never exhausted."
  },
  {
   "property": "C58",
   "status": "proved",
   "theorems": [
    "C58_total",
    "C58_count",
    "C58_normal",
    "C58_lost",
    "C58_current",
    "C58_view",
    "C58_refuted",
    "C58_early_refuted"
   ],
   "note": "Count, content in the usual order of events; C58_lost, C58_refuted and C58_early_refuted for other orders."
  },
  {
   "property": "C59",
   "status": "proved",
   "theorems": [
    "C59_index",
    "C59_name",
    "C59_mixer",
    "C59_slot",
    "C59_channel",
    "C59_slice",
    "C59_refuted"
   ],
   "note": "Patterns, rack, mixer, insert slots and slices; C59_refuted: slice and index of the mixer count differently."
  },
  {
   "property": "C60",
   "status": "proved",
   "theorems": [
    "C60_children",
    "C60_missing",
    "C60_refuted"
   ],
   "note": "C60_refuted: a layer before its children in the rack cannot be iterated when looked up by index."
  },
  {
   "property": "C61",
   "status": "proved",
   "theorems": [
    "C61_get",
    "C61_set",
    "C61_old",
    "C61_none",
    "C61_half"
   ],
   "note": "C61_half: a refused assignment has already changed the start."
  },
  {
   "property": "C62",
   "status": "proved",
   "theorems": [
    "C62_session",
    "C62_commute"
   ],
   "note": "C62_session for any history; C62_commute for one edit against one view of each sort."
  },
  {
   "property": "C63",
   "status": "proved",
   "theorems": [
    "C63_get",
    "C63_set",
    "C63_old",
    "C63_none",
    "C63_pitch",
    "C63_no_pitch",
    "C63_saved",
    "C63_refuted"
   ],
   "note": "C63_refuted: on an old 8-bit event a documented value is accepted and the project can no longer be saved."
  },
  {
   "property": "C64",
   "status": "proved",
   "theorems": [
    "C64_offsets",
    "C64_channel",
    "C64_pattern",
    "C64_refuted"
   ],
   "note": "C64_refuted: with a pattern numbered 0, or a channel numbered above the base, the item changes its sort."
  },
  {
   "property": "C65",
   "status": "proved",
   "theorems": [
    "C65_set",
    "C65_fresh",
    "C65_unnumbered",
    "C65_refuted"
   ],
   "note": "C65_refuted: the number of another pattern merges the two."
  },
  {
   "property": "C66",
   "status": "proved",
   "theorems": [
    "C66_dict",
    "C66_edit"
   ],
   "note": "dictionaries and edits through them; events beyond the names are not shown"
  },
  {
   "property": "C67",
   "status": "proved",
   "theorems": [
    "C67_dock",
    "C67_band",
    "C67_missing"
   ],
   "note": "dock and equaliser"
  },
  {
   "property": "C68",
   "status": "proved",
   "theorems": [
    "C68_paired",
    "C68_routes",
    "C68_none",
    "C68_refuted"
   ],
   "note": "C68_refuted: the pairing is by position, not by id"
  },
  {
   "property": "C69",
   "status": "proved",
   "theorems": [
    "C69_spent",
    "C69_created",
    "C69_none"
   ],
   "note": "dates in microseconds since the epoch; the calendar is not modelled"
  },
  {
   "property": "C70",
   "status": "proved",
   "theorems": [
    "C70_shown",
    "C70_sample",
    "C70_data",
    "C70_none",
    "C70_saved",
    "C70_saved_data"
   ],
   "note": "pathlib on POSIX, as in PurePosixPath"
  },
  {
   "property": "C71",
   "status": "proved",
   "theorems": [
    "C71_markers",
    "C71_blocks",
    "C71_edit",
    "C71_refuted"
   ],
   "note": "C71_refuted: a missing event shifts all later ones of its sort"
  },
  {
   "property": "C72",
   "status": "proved",
   "theorems": [
    "C72_points",
    "C72_none",
    "C72_ordered",
    "C72_first",
    "C72_position_fixed",
    "C72_edit",
    "C72_saved",
    "C72_saved_int",
    "C72_amount"
   ],
   "note": "all numbers of points and all floats; sums exact when representable, ordered otherwise"
  },
  {
   "property": "C73",
   "status": "proved",
   "theorems": [
    "C73_elements",
    "C73_none",
    "C73_short",
    "C73_note",
    "C73_controller",
    "C73_saved",
    "C73_key_saved",
    "C73_slide_saved",
    "C73_value_saved"
   ],
   "note": "all elements, fields and storable values"
  },
  {
   "property": "C74",
   "status": "proved",
   "theorems": [
    "C74_read",
    "C74_meaning",
    "C74_text",
    "C74_raw",
    "C74_flag",
    "C74_unfit",
    "C74_absent",
    "C74_refuted"
   ],
   "note": "texts, raw data and flags for all values; numbers refuted"
  },
  {
   "property": "C75",
   "status": "proved",
   "theorems": [
    "C75_saved",
    "C75_read",
    "C75_open",
    "C75_property",
    "C75_flag",
    "C75_struct",
    "C75_struct_flag",
    "C75_item",
    "C75_item_flag",
    "C75_levels",
    "C75_pitch",
    "C75_levels_old",
    "C75_loop",
    "C75_iid",
    "C75_key",
    "C75_param",
    "C75_item_index",
    "C75_offsets",
    "C75_tuples",
    "C75_path",
    "C75_vst"
   ],
   "note": "the version and the internal plugin name are not edited inside a session (C37, C51 treat them alone); VST numbers are refuted in C74"
  },
  {
   "property": "C76",
   "status": "proved",
   "theorems": [
    "C76_table",
    "C76_record",
    "C76_read",
    "C76_write",
    "C76_refused",
    "C76_nested",
    "C76_arp_refuted",
    "C76_muted_refuted",
    "C76_directx",
    "C76_directx_refuted"
   ],
   "note": "the table of declarations (M_Api) was extracted from the source; properties written as methods are treated by their own claims (C34-C73)"
  },
  {
   "property": "C77",
   "status": "proved",
   "theorems": [
    "C77_class",
    "C77_plugin",
    "C77_known"
   ],
   "note": "the classes of plugin data are in bijection with the plugin classes"
  },
  {
   "property": "C78",
   "status": "proved",
   "theorems": [
    "C78_classes",
    "C78_zipped",
    "C78_name",
    "C78_slots",
    "C78_slots_refuted"
   ],
   "note": "C78_slots_refuted: `len(insert)` is 0 while iterating gives one slot; the fallback of __len__ is never reached since counting does not raise"
  },
  {
   "property": "C79",
   "status": "proved",
   "theorems": [
    "C79_names",
    "C79_value",
    "C79_ids"
   ],
   "note": "the enumerations and the 29 exceptions are listed in S_Names"
  },
  {
   "property": "C80",
   "status": "proved",
   "theorems": [
    "C80_data",
    "C80_options",
    "C80_read",
    "C80_complete",
    "C80_assigned",
    "C80_short_refuted"
   ],
   "note": "C80_short_refuted: settings of fewer than nine bytes are read from the wrong bytes, so options that are not in the file are reported as on or off"
  },
  {
   "property": "C81",
   "status": "proved",
   "theorems": [
    "C81_printed",
    "C81_own",
    "C81_delay",
    "C81_arp_refuted",
    "C81_band",
    "C81_equaliser_refuted"
   ],
   "note": "C81_arp_refuted: for every project with arpeggio settings, printing them raises KeyError. The text itself, and the methods and constants that are shown as well, are not modelled; C81_equaliser_refuted: an insert's equaliser can never be printed, its size asks for a missing key"
  },
  {
   "property": "C82",
   "status": "proved",
   "theorems": [
    "C82_equal",
    "C82_laws",
    "C82_single",
    "C82_members",
    "C82_bytes_refuted"
   ],
   "note": "C82_bytes_refuted: records that differ only in members with an underscore in front (unknown fields) are equal though saved as different bytes; an event with NaN differs from itself read again"
  },
  {
   "property": "C83",
   "status": "proved",
   "theorems": [
    "C83_equal",
    "C83_channels",
    "C83_member",
    "C83_patterns",
    "C83_inserts",
    "C83_contents_refuted"
   ],
   "note": "C83_contents_refuted: channels of two projects are equal though all their events hold different values"
  },
  {
   "property": "C84",
   "status": "proved",
   "theorems": [
    "C84_index",
    "C84_slice",
    "C84_raises",
    "C84_plain",
    "C84_order"
   ],
   "note": "track[\"name\"] gives the object NotImplemented instead of raising (C84_case)"
  },
  {
   "property": "C85",
   "status": "proved",
   "theorems": [
    "C85_version",
    "C85_project",
    "C85_signature",
    "C85_marker",
    "C85_pattern",
    "C85_note",
    "C85_controller",
    "C85_channel",
    "C85_patterns",
    "C85_rack",
    "C85_layer",
    "C85_arrangement",
    "C85_mixer",
    "C85_insert",
    "C85_group",
    "C85_track"
   ],
   "note": "How single values are printed (str() and repr() of ints, texts and None) is not modelled, a text is a sequence of literal parts and values; versions and str(project) are characters"
  }
 ]
}