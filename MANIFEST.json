{
 "claims": [
  {
   "property": "C01",
   "status": "proved",
   "theorems": [
    "C01_integer_round_trip",
    "C01_out_of_range_refused"
   ],
   "note": "Every width, signedness and byte order; the stored bytes are also pinned to their place value."
  },
  {
   "property": "C02",
   "status": "proved",
   "theorems": [
    "C02_text_round_trip",
    "C02_text_stored_as_mac_roman",
    "C02_every_byte_has_its_character",
    "C02_foreign_character_refused",
    "C02_too_long_refused",
    "C02_length_65535_lost"
   ],
   "note": "Round trip, both refusals, and the lost length 65535."
  },
  {
   "property": "C03",
   "status": "proved",
   "theorems": [
    "C03_utf8_round_trip"
   ],
   "note": "All Unicode scalar values."
  },
  {
   "property": "C04",
   "status": "proved",
   "theorems": [
    "C04_whole_number_survives",
    "C04_5994_comes_back_as_59_94",
    "C04_out_of_range_refused",
    "C04_infinite_or_nan_refused"
   ],
   "note": "Every whole-number double; 5994 is the one exception and is shown. Minus zero comes back as zero. Uses the axioms of Coq's reals."
  },
  {
   "property": "C05",
   "status": "proved",
   "theorems": [
    "C05_finite_decided",
    "C05_stored_to_precision",
    "C05_read_to_precision",
    "C05_common_rates_survive",
    "C05_near_5994_refuted",
    "C05_exact_rate_lost_refuted"
   ],
   "note": "Every finite double. Values whose scaling comes out at 5994 are the stated exception, shown by a refutation. Python's pow(10, -k) is taken to be correctly rounded for k up to 6."
  },
  {
   "property": "C06",
   "status": "proved",
   "theorems": [
    "C06_uuid_tagged_round_trip",
    "C06_uuid_raw_round_trip"
   ],
   "note": "Tagged and raw forms."
  },
  {
   "property": "C07",
   "status": "proved",
   "theorems": [
    "C07_mobid_round_trip"
   ],
   "note": "32-byte mob IDs."
  },
  {
   "property": "C08",
   "status": "proved",
   "theorems": [
    "C08_equality_is_integer_equality",
    "C08_total_order",
    "C08_hash_respects_equality",
    "C08_integer_form",
    "C08_integer_assignment_wraps"
   ],
   "note": "Order laws, integer form, wrap-around of assigned integers. The hash of a byte string is a parameter."
  },
  {
   "property": "C09",
   "status": "proved",
   "theorems": [
    "C09_urn_names_the_mobid",
    "C09_urn_injective",
    "C09_clash_gives_another_mobid",
    "C09_unrestricted_refuted"
   ],
   "note": "Round trip and injectivity outside the clash set; the clash set is shown to be a real exception. Python's int() also accepts blanks, signs and underscores in digits; the model's parser refuses them."
  },
  {
   "property": "C10",
   "status": "proved",
   "theorems": [
    "C10_field_assignment",
    "C10_dictionary_rebuilds",
    "C10_fresh_mobid"
   ],
   "note": "Ten fields, dictionary form, fresh mob IDs."
  },
  {
   "property": "C11",
   "status": "proved",
   "theorems": [
    "C11_attributes_saved"
   ],
   "note": "Also: an entry that does not fit makes the writer raise."
  },
  {
   "property": "C12",
   "status": "proved",
   "theorems": [
    "C12_parameter_list_saved",
    "C12_time_crumb_list_saved",
    "C12_sequence_saved"
   ],
   "note": "Lists of references of parameter lists, time crumbs and sequences."
  },
  {
   "property": "C13",
   "status": "proved",
   "theorems": [
    "C13_source_clip_saved",
    "C13_timecode_saved",
    "C13_edgecode_saved",
    "C13_track_ref_saved",
    "C13_filler_saved"
   ],
   "note": "Rates: those whose stored form reads back (C05 says which)."
  },
  {
   "property": "C14",
   "status": "proved",
   "theorems": [
    "C14_param_clip_saved",
    "C14_control_clip_saved",
    "C14_unknown_kind_refuted"
   ],
   "note": "Needs a known value kind; without points an unknown kind is written and unreadable (refutation included)."
  },
  {
   "property": "C15",
   "status": "proved",
   "theorems": [
    "C15_tracks_kept",
    "C15_every_subset"
   ],
   "note": "All eleven track properties, any number of tracks."
  },
  {
   "property": "C16",
   "status": "proved",
   "theorems": [
    "C16_track_effect_saved",
    "C16_pan_volume_effect_saved",
    "C16_audio_suite_effect_saved",
    "C16_equalizer_multi_band_saved",
    "C16_capture_mask_saved",
    "C16_strobe_effect_saved",
    "C16_motion_effect_saved",
    "C16_repeat_effect_saved",
    "C16_essence_group_saved",
    "C16_transition_effect_saved",
    "C16_selector_saved",
    "C16_selector_out_of_range_refuted",
    "C16_two_plugins_refuted",
    "C16_audio_suite_mob_id_refuted"
   ],
   "note": "One plug-in, selected index in range; both conditions shown necessary. A mob ID with words over 2^31 cannot be saved in an audio-suite effect (refutation)."
  },
  {
   "property": "C17",
   "status": "proved",
   "theorems": [
    "C17_composition_saved"
   ],
   "note": "Composition, master and source mobs."
  },
  {
   "property": "C18",
   "status": "proved",
   "theorems": [
    "C18_media_descriptor_saved",
    "C18_tape_descriptor_saved",
    "C18_film_descriptor_saved",
    "C18_media_file_descriptor_saved",
    "C18_multi_descriptor_saved",
    "C18_wave_descriptor_saved",
    "C18_aifc_descriptor_saved",
    "C18_pcma_descriptor_saved",
    "C18_mpga_descriptor_saved",
    "C18_did_descriptor_saved",
    "C18_cdci_descriptor_saved",
    "C18_mpgi_descriptor_saved",
    "C18_jped_descriptor_saved",
    "C18_rgba_descriptor_saved",
    "C18_data_descriptor_saved",
    "C18_anc_data_descriptor_saved",
    "C18_single_box_refuted",
    "C18_sub_frame_alignment_refuted"
   ],
   "note": "Sixteen classes (nagra has the same code as film). Two losses are shown as refutations."
  },
  {
   "property": "C19",
   "status": "proved",
   "theorems": [
    "C19_file_locator_saved",
    "C19_url_locator_saved",
    "C19_graphic_effect_saved",
    "C19_shape_list_saved",
    "C19_color_correction_effect_saved",
    "C19_effect_param_list_saved",
    "C19_cf_user_param_saved",
    "C19_parameter_item_saved",
    "C19_msm_locator_saved",
    "C19_position_saved",
    "C19_bob_position_saved",
    "C19_did_position_saved",
    "C19_mpg_position_saved",
    "C19_bin_ref_saved",
    "C19_mob_ref_saved",
    "C19_marker_saved",
    "C19_tracker_manager_saved",
    "C19_tracker_data_slot_saved",
    "C19_tracker_parameter_slot_saved",
    "C19_tracker_data_saved",
    "C19_tracker_parameter_saved",
    "C19_marker_color_refuted",
    "C19_user_param_byte_order_refuted"
   ],
   "note": "Twenty-one classes; the Windows and Mac locators share the code of FileLocator."
  },
  {
   "property": "C20",
   "status": "proved",
   "theorems": [
    "C20_setting_saved",
    "C20_bin_view_setting_saved",
    "C20_bin_saved",
    "C20_bin_first_saved",
    "C20_large_bin_saved",
    "C20_sift_settings_refuted"
   ],
   "note": "Settings, view settings, bins, BINF, and the switch to the large form."
  },
  {
   "property": "C21",
   "status": "proved",
   "theorems": [
    "C21_saves_alike",
    "C21_documents",
    "C21_same_outcome",
    "C21_same_object"
   ],
   "note": "All 64 classes that can be saved (TRKG and DATD never end their chunk and are refused). Lengths and failures are compared for every object, storable or not; whole saves (C21_saves_alike, C21_documents) for every document that walks its references."
  },
  {
   "property": "C22",
   "status": "proved",
   "theorems": [
    "C22_prefix_refused",
    "C22_cut_object_refused"
   ],
   "note": "Every accepted chunk, saved or not, of every class; standard readers."
  },
  {
   "property": "C23",
   "status": "proved",
   "theorems": [
    "C23_longer_refused",
    "C23_saved_object_longer_refused"
   ],
   "note": "Every accepted chunk, saved or not, of every class; standard readers."
  },
  {
   "property": "C24",
   "status": "proved",
   "theorems": [
    "C24_table",
    "C24_no_overlap",
    "C24_reads_its_bytes"
   ],
   "note": "Any file the opener accepts, written by this package or not."
  },
  {
   "property": "C25",
   "status": "proved",
   "theorems": [
    "C25_reopens",
    "C25_equal",
    "C25_completes",
    "C25_depth"
   ],
   "note": "Any acyclic document whose objects are storable and have distinct identities. C25_depth: the recursion the save needs is the length of the longest chain of references, not the number of objects."
  },
  {
   "property": "C26",
   "status": "proved",
   "theorems": [
    "C26_once_in_order"
   ],
   "note": "Any document; the order is the order of first completed visits."
  },
  {
   "property": "C27",
   "status": "proved",
   "theorems": [
    "C27_sharing"
   ],
   "note": "The number stored for a reference is the number of the one chunk of the object referred to."
  },
  {
   "property": "C28",
   "status": "proved",
   "theorems": [
    "C28_interrupted",
    "C28_failed",
    "C28_completed",
    "C28_torn_root_refuted"
   ],
   "note": "Every prefix of the steps of a save, every partial append, and saves that raise. A partial write of the last four bytes (the root's number) is not covered and shown to break the claim (refutation)."
  },
  {
   "property": "C29",
   "status": "proved",
   "theorems": [
    "C29_history",
    "C29_other_order"
   ],
   "note": "Any history of earlier saves, failed ones included."
  },
  {
   "property": "C30",
   "status": "proved",
   "theorems": [
    "C30_cyclic",
    "C30_acyclic"
   ],
   "note": "For every recursion limit; the limit is counted in objects rather than in Python frames."
  },
  {
   "property": "C31",
   "status": "proved",
   "theorems": [
    "C31_identity",
    "C31_later",
    "C31_distinct",
    "C31_loaded",
    "C31_dangling_refuted"
   ],
   "note": "What an object holds is abstract (a number). Objects an __init__ makes are further creations; a reader loads no other object while it reads."
  },
  {
   "property": "C32",
   "status": "proved",
   "theorems": [
    "C32_looking",
    "C32_changing",
    "C32_creating",
    "C32_kept",
    "C32_entries"
   ],
   "note": "Releases by others are steps of the history (Forget); the garbage collector itself is not modelled."
  },
  {
   "property": "C33",
   "status": "proved",
   "theorems": [
    "C33_effect",
    "C33_index",
    "C33_succeeds",
    "C33_marks",
    "C33_remove",
    "C33_remove_refuted",
    "C33_no_effect",
    "C33_clear_refuted",
    "C33_pop_broken_refuted"
   ],
   "note": "Each theorem is about one operation on any list, so about each step of any history. Loading is any function; entries compare as Python compares them (objects by identity, references by document and number)."
  },
  {
   "property": "C34",
   "status": "proved",
   "theorems": [
    "C34_length_is_clips_less_transitions",
    "C34_positions_are_running_totals",
    "C34_neighbours",
    "C34_last_position"
   ],
   "note": "Any lengths, negative ones included."
  },
  {
   "property": "C35",
   "status": "proved",
   "theorems": [
    "C35_index_and_position_belong_together",
    "C35_component_found",
    "C35_component_plays",
    "C35_no_transitions_proper",
    "C35_transition_found",
    "C35_before_the_start",
    "C35_after_the_end",
    "C35_covered_clip_refuted"
   ],
   "note": "proper and no_overlap say what a sequence that makes sense is; a refutation shows the second is needed."
  },
  {
   "property": "C36",
   "status": "proved",
   "theorems": [
    "C36_search_ends",
    "C36_right_keyframe",
    "C36_no_keyframes",
    "C36_times"
   ],
   "note": "Times are doubles; keyframes with any 32-bit fields have one (C36_times). Uses the axioms of Coq's reals."
  },
  {
   "property": "C37",
   "status": "proved",
   "theorems": [
    "C37_before_first",
    "C37_after_last",
    "C37_stepped",
    "C37_linear_at_keyframe",
    "C37_linear_between",
    "C37_linear_overshoot_refuted",
    "C37_linear_nan_refuted"
   ],
   "note": "Doubles throughout. Two refutations show the conditions are needed. Bezier and cubic curves between keyframes are C55 and C56. Uses the axioms of Coq's reals."
  },
  {
   "property": "C38",
   "status": "proved",
   "theorems": [
    "C38_lookup",
    "C38_kinds",
    "C38_unnoticed_refuted",
    "C38_missing_mob_refuted"
   ],
   "note": "Mob IDs are numbers here; the dictionary is a list of entries."
  },
  {
   "property": "C39",
   "status": "proved",
   "theorems": [
    "C39_listing",
    "C39_circle"
   ],
   "note": "The mob graph is any function from mobs to the mobs of their source clips, in order."
  },
  {
   "property": "C40",
   "status": "proved",
   "theorems": [
    "C40_equal",
    "C40_original",
    "C40_document",
    "C40_twice",
    "C40_properties",
    "C40_more_refuted",
    "C40_owner",
    "C40_when",
    "C40_limit",
    "C40_circle",
    "C40_none"
   ],
   "note": "References count as the objects they lead to (loading is C31). The recursion limit is counted in objects. sound says the graph is in order before: no dangling references, no repeated keys, plain lists hold objects and data."
  },
  {
   "property": "C41",
   "status": "proved",
   "theorems": [
    "C41_apart",
    "C41_data",
    "C41_lists",
    "C41_attributes",
    "C41_shared_refuted"
   ],
   "note": "The sharing is shown for all graphs, and with a concrete witness (refutation)."
  },
  {
   "property": "C42",
   "status": "proved",
   "theorems": [
    "C42_set_then_get",
    "C42_names",
    "C42_unknown_name",
    "C42_codes_one_to_one",
    "C42_unknown_code",
    "C42_kinds",
    "C42_mob_types",
    "C42_mob_type_names",
    "C42_mob_type_number_refuted",
    "C42_mob_types_one_to_one",
    "C42_mob_type_codes",
    "C42_usages",
    "C42_usage_names",
    "C42_usages_refuted"
   ],
   "note": "The tables are stated apart from the model (NamesSpec). Two refutations record where the code does less than the title says: unknown usages share a name, and a numeric mob type is silently a master mob."
  },
  {
   "property": "C43",
   "status": "proved",
   "theorems": [
    "C43_reads_alike",
    "C43_reads_what_is_written",
    "C43_classes",
    "C43_negative_value_refuted",
    "C43_negative_kind_refuted",
    "C43_text_refuted",
    "C43_negative_count_refuted",
    "C43_broken_chunks_refuted"
   ],
   "note": "All chunks the standard readers accept, not only written ones; the differences are part of the relation (standard in ExtSpec.v), each also shown by a witness. Failing to allocate is modelled as asking for 2^31 elements or more."
  },
  {
   "property": "C44",
   "status": "proved",
   "theorems": [
    "C44_references_in_table"
   ],
   "note": "Any bytes as chunk data."
  },
  {
   "property": "C45",
   "status": "proved",
   "theorems": [
    "C45_header",
    "C45_refused"
   ],
   "note": "Header fields, dates and versions that fit; what does not fit is refused."
  },
  {
   "property": "C46",
   "status": "proved",
   "theorems": [
    "C46_read_then_write",
    "C46_fixed_offset",
    "C46_clock_set_back",
    "C46_write_then_read"
   ],
   "note": "The zone and mktime are the C library's: the theorems hold for every zone and every mktime that is right for times the clock shows. C46_clock_set_back says the failure happens in every zone that shows a time twice."
  },
  {
   "property": "C47",
   "status": "proved",
   "theorems": [
    "C47_every_half_frame_once",
    "C47_values",
    "C47_zero_at_first_keyframe",
    "C47_values_are_doubles",
    "C47_result_when",
    "C47_errors",
    "C47_extend_end",
    "C47_extend_start",
    "C47_default_end",
    "C47_exact_values",
    "C47_exact_extend_start",
    "C47_constant_speed",
    "C47_ramp",
    "C47_start_before_first_keyframe_refuted"
   ],
   "note": "Frames up to 2^52, beyond which half frames are not doubles. 'Except for rounding' is the theorem over rationals (same code, other numbers); a refutation shows doubles do differ. Uses the axioms of Coq's reals."
  },
  {
   "property": "C48",
   "status": "proved",
   "theorems": [
    "C48_foreign",
    "C48_not_stored",
    "C48_foreign_refuted"
   ],
   "note": "The silent replacement is shown by a refutation."
  },
  {
   "property": "C49",
   "status": "proved",
   "theorems": [
    "C49_bytes_int_bytes",
    "C49_int_bytes_int",
    "C49_orders_are_mirrors",
    "C49_result_is_bytes"
   ],
   "note": "Helpers int_from_bytes and bytes_from_int."
  },
  {
   "property": "C50",
   "status": "proved",
   "theorems": [
    "C50_equal_chunks",
    "C50_class_codes",
    "C50_lock_number_refuted"
   ],
   "note": "Objects of any classes. A track without lock number is stored like one with lock number 0 (refutation); obj_whole excludes it."
  },
  {
   "property": "C51",
   "status": "proved",
   "theorems": [
    "C51_whole_numbers_stay",
    "C51_one_save_moves_little",
    "C51_drift_refuted"
   ],
   "note": "The drift itself is shown by a concrete run (refutation of stability)."
  },
  {
   "property": "C52",
   "status": "proved",
   "theorems": [
    "C52_calendar",
    "C52_text"
   ],
   "note": "Not about CPython's own calendar code, which is not in the repository: the model's calendar is shown to be the Gregorian one."
  },
  {
   "property": "C53",
   "status": "proved",
   "theorems": [
    "C53_unseen",
    "C53_kept",
    "C53_refuted"
   ],
   "note": "The loss is shown by a refutation."
  },
  {
   "property": "C54",
   "status": "proved",
   "theorems": [
    "C54_shared",
    "C54_only"
   ],
   "note": "Creation as in Copy.v; the objects made inside the objects an __init__ makes are left out."
  },
  {
   "property": "C55",
   "status": "proved",
   "theorems": [
    "C55_handles",
    "C55_bezier_on_curve",
    "C55_one_value_per_time",
    "C55_bezier_within",
    "C55_segment_ends",
    "C55_through_keyframes",
    "C55_outside",
    "C55_equal_times_refuted",
    "C55_close_times_refuted",
    "C55_nearly_flat_refuted"
   ],
   "note": "Real numbers instead of doubles: nothing is rounded and nothing overflows. Three refutations: equal times, keyframes closer than the threshold, and a nearly parabolic curve. Uses the axioms of Coq's reals."
  },
  {
   "property": "C56",
   "status": "proved",
   "theorems": [
    "C56_no_overshoot",
    "C56_monotone",
    "C56_on_curve",
    "C56_flat_at_extremes"
   ],
   "note": "Real numbers instead of doubles. Uses the axioms of Coq's reals."
  },
  {
   "property": "C57",
   "status": "proved",
   "theorems": [
    "C57_rewrites",
    "C57_same",
    "C57_exact",
    "C57_library",
    "C57_missing_mob_id_refuted",
    "C57_missing_name_refuted",
    "C57_rate_refuted",
    "C57_large_rate_refuted",
    "C57_sign_refuted",
    "C57_long_text_refuted",
    "C57_long_list_refuted",
    "C57_closing_byte_refuted",
    "C57_locks_refuted"
   ],
   "note": "All classes whose writers close their chunks; for TRKG and DATD nothing can be kept. The exceptions are shown by refutations with concrete chunks or texts."
  },
  {
   "property": "C58",
   "status": "proved",
   "theorems": [
    "C58_resaves",
    "C58_completes"
   ],
   "note": "The standard readers are used throughout (the accelerated ones agree with them, C43). The order of walking is any order that meets exactly the references of each object."
  },
  {
   "property": "C59",
   "status": "proved",
   "theorems": [
    "C59_through",
    "C59_again",
    "C59_settles",
    "C59_file_settles",
    "C59_library_order",
    "C59_version_refuted",
    "C59_time_refuted",
    "C59_order_refuted"
   ],
   "note": "The standard readers are used throughout. C59_library_order instantiates the order of walking with that of core.walk_references over objects read from chunks of the library; for objects from other programs and for objects built in memory the order is left open, and C59_settles covers them from the second file on. Three refutations show the conditions on version, time and order are needed."
  },
  {
   "property": "C60",
   "status": "proved",
   "theorems": [
    "C60_kept",
    "C60_kept_new",
    "C60_untouched",
    "C60_looking",
    "C60_saves",
    "C60_unnoticed_refuted"
   ],
   "note": "An edit replaces the contents of an object as a whole; which Python operations call add_modified is C33 and C53. The garbage collector may take any object that is neither marked modified nor the content, at any moment. The loss of unnoticed changes is shown by a refutation."
  },
  {
   "property": "C61",
   "status": "proved",
   "theorems": [
    "C61_mob",
    "C61_none",
    "C61_track",
    "C61_kind",
    "C61_saved",
    "C61_unnumbered_refuted",
    "C61_same_id_refuted",
    "C61_selector"
   ],
   "note": "How a reference leads to an object is a parameter (any store); the table of ids that find_by_mob_id keeps is taken to be empty before (its reuse is C38). Bin items that are no compositions count as having no mob id. Two refutations show the limits."
  },
  {
   "property": "C62",
   "status": "proved",
   "theorems": [
    "C62_listing",
    "C62_saved",
    "C62_text",
    "C62_text_big_refuted"
   ],
   "note": "Objects are read without the cache (with it: C31). The header counts as chunk 0 and gives None when OBJD is asked for; C62_saved leaves that code out. The big endian case is a refutation."
  },
  {
   "property": "C63",
   "status": "proved",
   "theorems": [
    "C63_made",
    "C63_arguments",
    "C63_composition",
    "C63_refused",
    "C63_name_refuted",
    "C63_bare_refuted",
    "C63_saved"
   ],
   "note": "The clock, the random uid and MobID.new are arguments. Constructors of the classes with properties that neither have a default nor are set by __init__ are not modelled: their new objects raise AttributeError when written until the program sets the rest. After a refused argument the model leaves the document as it was, the code has used up two numbers. Two refutations show the limits."
  },
  {
   "property": "C64",
   "status": "proved",
   "theorems": [
    "C64_chain",
    "C64_looks",
    "C64_file",
    "C64_continues",
    "C64_settles"
   ],
   "note": "Objects are read without the cache and not edited between open and save (edits: C60). The time zone of a save is that in which the file was opened. C64_continues needs a zone that does not show the save time twice; a lock number a track never had counts as 0 (C64_chain with obj_whole gives equality)."
  },
  {
   "property": "C65",
   "status": "proved",
   "theorems": [
    "C65_turns",
    "C65_in_memory",
    "C65_failed",
    "C65_lost",
    "C65_lost_other",
    "C65_itself_refuted"
   ],
   "note": "What the file shows during the save is left open (any function of the steps done; for the loss any number of bytes of what was written). The document itself is not changed during the save. C65_itself_refuted shows the loss on a concrete file; it needs an unbuffered reader or a file larger than the read buffer to show in practice."
  },
  {
   "property": "C66",
   "status": "proved",
   "theorems": [
    "C66_exact",
    "C66_one",
    "C66_opened",
    "C66_saves",
    "C66_memory",
    "C66_negative_kind_refuted"
   ],
   "note": "An accelerated reader sets properties by name; the object is taken to be the one with exactly these properties (C66_one: there is at most one). The file is assumed to hold bytes, as objects of the model may carry raw data that is none. C66_negative_kind_refuted shows the condition on signs is needed."
  },
  {
   "property": "C67",
   "status": "proved",
   "theorems": [
    "C67_text",
    "C67_name",
    "C67_entries",
    "C67_unknown",
    "C67_names_refuted"
   ],
   "note": "The table is transcribed in the order of the file; str(UUID) is modelled by its digits."
  },
  {
   "property": "C68",
   "status": "proved",
   "theorems": [
    "C68_valid",
    "C68_class",
    "C68_beyond",
    "C68_saved",
    "C68_null_refuted"
   ],
   "note": "Indexes are not negative (they come from unsigned numbers). Objects are read without the cache. The null reference is a refutation."
  },
  {
   "property": "C69",
   "status": "proved",
   "theorems": [
    "C69_moved",
    "C69_alike",
    "C69_copy",
    "C69_copy_refuted"
   ],
   "note": "That the copies made by copy fold onto their originals is C40 (C40_equal, C40_twice) on the heap of Copy.v; here any such document is considered. The refutation shows the files may differ in the number of objects."
  },
  {
   "property": "C70",
   "status": "proved",
   "theorems": [
    "C70_step",
    "C70_delete",
    "C70_replace",
    "C70_assign",
    "C70_read",
    "C70_read_refuted",
    "C70_inplace_refuted"
   ],
   "note": "The slice arithmetic is CPython's (PySlice_AdjustIndices, list_ass_subscript), modelled and proved equal to the rules of the Python documentation. Two refutations: slices of loaded lists hold references, and the inherited in-place operators mark nothing."
  },
  {
   "property": "C71",
   "status": "proved",
   "theorems": [
    "C71_made",
    "C71_supplied",
    "C71_right",
    "C71_kept",
    "C71_kept_later",
    "C71_gone",
    "C71_complete",
    "C71_incomplete",
    "C71_with_refuted",
    "C71_let_go_refuted"
   ],
   "note": "Edits as in C60. The with-block and let-go cases are refutations with concrete files: they show that memory, not the document, decides."
  },
  {
   "property": "C72",
   "status": "proved",
   "theorems": [
    "C72_set_get",
    "C72_unset",
    "C72_methods",
    "C72_refused",
    "C72_descriptors",
    "C72_registered",
    "C72_readers",
    "C72_codes",
    "C72_descriptor_refuted",
    "C72_shapes_refuted"
   ],
   "note": "The table of classes is transcribed; types and defaults of properties are left out, values are any type. That setting a property also marks the object is not part of these theorems; it is C32_changing, about the document model. Facts about the transcribed table are proved by computation over all its entries. Attributes of Python's object (two underscores) are left out. Two refutations: the shared table of the media descriptors and the missing __slots__ of ShapeList."
  }
 ]
}