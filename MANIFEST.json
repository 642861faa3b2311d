{
 "claims": [
  {
   "property": "C01",
   "status": "proved",
   "theorems": [
    "C01_last_write_wins",
    "C01_observers"
   ],
   "note": "part store as a gmap; HashMap iteration order and duplicate ZIP entry names covered"
  },
  {
   "property": "C02",
   "status": "proved",
   "theorems": [
    "C02_open",
    "C02_save_open",
    "C02_save_open_exact"
   ],
   "note": "ZIP entries as a list in any order; directory test is a parameter; exact theorem says which parts are lost; ZIP compression itself is trusted"
  },
  {
   "property": "C03",
   "status": "proved",
   "theorems": [
    "C03_resolves_by_walking",
    "C03_every_target_has_segments",
    "C03_sibling_directory",
    "C03_below",
    "C03_absolute",
    "C03_absolute_ignores_source",
    "C03_source_directory",
    "C03_absolute_dots_refuted",
    "C03_root_part_refuted"
   ],
   "note": ""
  },
  {
   "property": "C04",
   "status": "proved",
   "theorems": [
    "C04_escape_safe",
    "C04_escape_lossless",
    "C04_escape_injective",
    "C04_escape_plain"
   ],
   "note": "Escaped form decodes (five predefined entities) to exactly the text, contains no < > \" '"
  },
  {
   "property": "C05",
   "status": "proved",
   "theorems": [
    "C05_escapers_agree",
    "C05_escape_concat",
    "C05_theme_escaper_differs_refuted"
   ],
   "note": "All full escapers equal escape_xml. The theme writer's three-character attribute escaper is a different function (C05_theme_escaper_differs_refuted), not covered by the claim"
  },
  {
   "property": "C06",
   "status": "proved",
   "theorems": [
    "C06_writer_roundtrip",
    "C06_control_character_refuted",
    "C06_attribute_tab_refuted"
   ],
   "note": "For values of characters XML can carry; control characters and attribute tabs are refuted"
  },
  {
   "property": "C07",
   "status": "proved",
   "theorems": [
    "C07_editor_is_list",
    "C07_open_numbered"
   ],
   "note": "refinement over whole sessions; slide XML rendering and from_utf8_lossy are universally quantified functions"
  },
  {
   "property": "C08",
   "status": "proved",
   "theorems": [
    "C08_failure_changes_nothing",
    "C08_fails_iff_out_of_range"
   ],
   "note": ""
  },
  {
   "property": "C09",
   "status": "proved",
   "theorems": [
    "C09_other_parts_untouched"
   ],
   "note": ""
  },
  {
   "property": "C10",
   "status": "proved",
   "theorems": [
    "C10_indexes_consistent",
    "C10_add_slide_refuted",
    "C10_notes_master_refuted"
   ],
   "note": "read back with the independent XML reader; refutations for add_slide and for the notes master reference"
  },
  {
   "property": "C11",
   "status": "proved",
   "theorems": [
    "C11_relationship_ids_distinct",
    "C11_preassigned_font_id_refuted"
   ],
   "note": "font ids assigned by the generator; caller-chosen ids refuted"
  },
  {
   "property": "C12",
   "status": "proved",
   "theorems": [
    "C12_references_resolve"
   ],
   "note": ""
  },
  {
   "property": "C13",
   "status": "proved",
   "theorems": [
    "C13_chart_parts",
    "C13_slide_charts",
    "C13_notes_parts",
    "C13_notes",
    "C13_no_notes"
   ],
   "note": "Chart/notes numbering, links and link-backs of whole decks."
  },
  {
   "property": "C14",
   "status": "proved",
   "theorems": [
    "C14_media_parts",
    "C14_images"
   ],
   "note": "Media parts are the distinct (bytes, extension) pairs in first-use order; linked with own bytes; shared iff equal."
  },
  {
   "property": "C15",
   "status": "proved",
   "theorems": [
    "C15_slide_relationships",
    "C15_unloadable_image_refuted",
    "C15_taken_id_refuted"
   ],
   "note": "On loadable images and free hyperlink ids; refuted outside."
  },
  {
   "property": "C16",
   "status": "proved",
   "theorems": [
    "C16_drawing_ids_distinct",
    "C16_chosen_id_refuted"
   ],
   "note": "drawing ids distinct for all counts; refuted for caller-chosen ids"
  },
  {
   "property": "C17",
   "status": "proved",
   "theorems": [
    "C17_media_types",
    "C17_other_formats_refuted"
   ],
   "note": "For jpg/png/gif; refuted for every other format."
  },
  {
   "property": "C18",
   "status": "proved",
   "theorems": [
    "C18_any_file",
    "C18_deck",
    "C18_list_order_refuted"
   ],
   "note": "Any file: order of relationship numbers; generated decks: all slides in order. Refuted: the order of presentation.xml's slide list is not used."
  },
  {
   "property": "C19",
   "status": "proved",
   "theorems": [
    "C19_regions_disjoint_inside",
    "C19_accepted_iff_free",
    "C19_overflow_refuted"
   ],
   "note": "usize arithmetic is release wrapping; regions whose end fits in usize; overflow refuted"
  },
  {
   "property": "C20",
   "status": "proved",
   "theorems": [
    "C20_cell_state"
   ],
   "note": ""
  },
  {
   "property": "C21",
   "status": "proved",
   "theorems": [
    "C21_sections_partition",
    "C21_add_refused_iff_overlap",
    "C21_overflow_refuted",
    "C21_remove",
    "C21_find",
    "C21_rename"
   ],
   "note": "sections whose end fits in usize; overflow refuted"
  },
  {
   "property": "C22",
   "status": "proved",
   "theorems": [
    "C22_authors_stable",
    "C22_comment_indexes",
    "C22_mixed_refuted"
   ],
   "note": "fewer than 2^32 calls; comments added through add_comment (mixing with add refuted)"
  },
  {
   "property": "C23",
   "status": "proved",
   "theorems": [
    "C23_font_list",
    "C23_assign_keeps_fonts",
    "C23_distinct_parts_refuted",
    "C23_panose_unescaped_refuted"
   ],
   "note": "part-name collision and unescaped panose recorded as refutations"
  },
  {
   "property": "C24",
   "status": "proved",
   "theorems": [
    "C24_add_fresh",
    "C24_add_with_id_get",
    "C24_overflow_refuted"
   ],
   "note": "explicit numbers and calls stay inside u32; overflow refuted"
  },
  {
   "property": "C25",
   "status": "proved",
   "theorems": [
    "C25_hex_round_trip",
    "C25_color_value_round_trip",
    "C25_accepted_iff_denotes",
    "C25_no_panic_on_ascii",
    "C25_panic_refuted",
    "C25_sign_refuted",
    "C25_invert_involutive",
    "C25_color_value_read"
   ],
   "note": "exact acceptance language incl. the plus-sign quirk; panics only outside ASCII (both shown)"
  },
  {
   "property": "C26",
   "status": "proved",
   "theorems": [
    "C26_encode_is_rfc4648",
    "C26_encode_shape",
    "C26_decode_inverse"
   ],
   "note": "trim modelled for ASCII white space"
  },
  {
   "property": "C27",
   "status": "proved",
   "theorems": [
    "C27_total",
    "C27_jpeg_total",
    "C27_png",
    "C27_gif",
    "C27_bmp",
    "C27_webp_lossy",
    "C27_webp_lossless",
    "C27_jpeg",
    "C27_sof1_refuted",
    "C27_auto_panics_refuted",
    "C27_auto"
   ],
   "note": "Reading dimensions is total (fuel never exhausted, no out-of-bounds access) and exact on PNG, GIF, BMP, WebP and JPEG headers. Refuted: SOF1 JPEGs have no dimensions; format detection (auto) panics exactly on 4- or 5-byte inputs that start neither like PNG nor JPEG."
  },
  {
   "property": "C28",
   "status": "proved",
   "theorems": [
    "C28_tokens_spell_text",
    "C28_looks",
    "C28_text_kept",
    "C28_plain",
    "C28_code_verbatim",
    "C28_runs",
    "C28_underscore_refuted"
   ],
   "note": "for every text with at least one ordinary character; a text of markers only is shown as it is"
  },
  {
   "property": "C29",
   "status": "proved",
   "theorems": [
    "C29_only_whitespace_removed",
    "C29_never_longer",
    "C29_tags_kept",
    "C29_text_refuted",
    "C29_attribute_refuted",
    "C29_idempotent_refuted"
   ],
   "note": "plus refutations: text, attribute values after a lone quote, idempotence"
  },
  {
   "property": "C30",
   "status": "proved",
   "theorems": [
    "C30_sizes_add_up",
    "C30_categories",
    "C30_counts",
    "C30_order_irrelevant",
    "C30_upper_case_refuted"
   ],
   "note": ""
  },
  {
   "property": "C31",
   "status": "proved",
   "theorems": [
    "C31_other_parts_kept",
    "C31_named_media_kept",
    "C31_removed_only_if_unnamed",
    "C31_xml_keeps_parts",
    "C31_default_keeps_parts",
    "C31_used_media_refuted",
    "C31_notes_refuted",
    "C31_exact"
   ],
   "note": "restated with its exact domain; the stronger claim is refuted"
  },
  {
   "property": "C32",
   "status": "proved",
   "theorems": [
    "C32_deck",
    "C32_titles",
    "C32_failure",
    "C32_prefix",
    "C32_no_panic",
    "C32_nested_list_refuted",
    "C32_paragraphs_refuted",
    "C32_bold_refuted",
    "C32_struck_refuted",
    "C32_panic_refuted",
    "C32_headings_refuted",
    "C32_two_tables_refuted",
    "C32_links_refuted"
   ],
   "note": "Any trim function, picture loader and diagram generator; events of any document of flat blocks (the exact domain is plain_block). C32_prefix and C32_no_panic hold for every event stream. Refuted for nested lists, multi-paragraph items and quotes, bold across breaks, text struck out within bold, headings in quotes or before the first slide, two tables on a slide, link targets, and some inline HTML, which panics."
  },
  {
   "property": "C33",
   "status": "proved",
   "theorems": [
    "C33_ends",
    "C33_max_slides",
    "C33_max_bullets",
    "C33_prefix",
    "C33_no_panic",
    "C33_tokens",
    "C33_deck",
    "C33_titles",
    "C33_skipped_void_refuted",
    "C33_script_refuted",
    "C33_inline_space_refuted",
    "C33_bold_cell_refuted",
    "C33_nested_list_refuted",
    "C33_limit_refuted",
    "C33_paragraphs_refuted",
    "C33_entity_refuted",
    "C33_panic_refuted",
    "C33_exported_refuted"
   ],
   "note": "Whole importer modelled: tokenizer, entities, inline styles, slide builder. Unicode tables (trim, lower, upper, alphanumeric), font-size parsing (floats) and image loading are universally quantified functions. Exact deck proved for documents of flat blocks and unstyled elements; limits, termination, prefix stability and no panic for every page. Refutations record what is lost."
  },
  {
   "property": "C34",
   "status": "proved",
   "theorems": [
    "C34_roundtrip",
    "C34_inert",
    "C34_document",
    "C34_front",
    "C34_title_refuted",
    "C34_yaml_refuted",
    "C34_bar_refuted",
    "C34_lines_refuted",
    "C34_reference_refuted",
    "C34_fence_refuted",
    "C34_image_refuted"
   ],
   "note": "Round trip for all strings; whole document read back; refutations outside the domain."
  },
  {
   "property": "C35",
   "status": "proved",
   "theorems": [
    "C35_document",
    "C35_escaped",
    "C35_unescaped_refuted",
    "C35_table_refuted"
   ],
   "note": "Whole page read back for arbitrary code and notes; unescaped titles and dropped tables refuted."
  },
  {
   "property": "C36",
   "status": "proved",
   "theorems": [
    "C36_counts_and_titles",
    "C36_slide_titles",
    "C36_core_title",
    "C36_core_title_refuted"
   ],
   "note": "Counts and titles of app.xml agree for every slide count and title list; core.xml shows the title if it needs no escaping (refuted otherwise: the title is not escaped)."
  },
  {
   "property": "C37",
   "status": "proved",
   "theorems": [
    "C37_time_of_day",
    "C37_valid_date_iff",
    "C37_month_refuted",
    "C37_february_refuted",
    "C37_wrong_date_refuted",
    "C37_order",
    "C37_year"
   ],
   "note": "The form and time of day are right for every second up to year 9999; the date is valid exactly under the stated condition; refuted: month 13, February 30, valid but wrong dates."
  },
  {
   "property": "C38",
   "status": "proved",
   "theorems": [
    "C38_end_points_recovered",
    "C38_unescaped_color_refuted",
    "C38_sites_refuted"
   ],
   "note": "End points, glued shapes and label recovered from the generated XML; the colour is written unescaped (refuted without the condition). The look of the line (geometry, width, colour, dashes, arrow heads) is part of the statement; connection sites left/right are swapped with respect to DrawingML (refuted)."
  },
  {
   "property": "C39",
   "status": "proved",
   "theorems": [
    "C39_combo_each_series_once",
    "C39_chart_shows",
    "C39_indexes_distinct",
    "C39_point_indexes_refuted",
    "C39_bar_kind_refuted",
    "C39_pie_drops_series_refuted",
    "C39_chart_drawn"
   ],
   "note": "All 21 chart types are modelled; numbers enter as their displayed text. The refuted theorems record defects: points without indexes, bar kinds not distinguished, extra pie series dropped."
  },
  {
   "property": "C40",
   "status": "proved",
   "theorems": [
    "C40_rectangular",
    "C40_shown",
    "C40_empty_rows_refuted"
   ],
   "note": "Column counts of 2^32 and more are outside the theorem; rows that are all empty panic (refuted theorem)."
  },
  {
   "property": "C41",
   "status": "proved",
   "theorems": [
    "C41_columns"
   ],
   "note": "both columns read back from the slide part"
  },
  {
   "property": "C42",
   "status": "proved",
   "theorems": [
    "C42_find_all_descendants",
    "C42_find_descendant_first",
    "C42_parse_builds_tree",
    "C42_text_in_document_order",
    "C42_mixed_text_refuted",
    "C42_blank_run_dropped_refuted",
    "C42_names_and_attributes",
    "C42_local_name_unique",
    "C42_children"
   ],
   "note": "xml-rs events are those of the XmlSpec reader; text order for unmixed content"
  },
  {
   "property": "C43",
   "status": "proved",
   "theorems": [
    "C43_required_parts",
    "C43_relationships",
    "C43_slide_references",
    "C43_shape_ids",
    "C43_slide_list",
    "C43_content_types",
    "C43_charts",
    "C43_attribute_order_refuted",
    "C43_unreadable_refuted",
    "C43_malformed_refuted",
    "C43_untyped_refuted",
    "C43_false_alarm_refuted"
   ],
   "note": "For every archive and every order of its part names. The validator's report is modelled as the list of its issues (all of them errors). Relationship parts: texts whose tags give Id before Target before TargetMode in double quotes; refuted otherwise."
  },
  {
   "property": "C44",
   "status": "proved",
   "theorems": [
    "C44_accounted",
    "C44_clean_untouched",
    "C44_frame",
    "C44_slides_listed",
    "C44_type_added",
    "C44_made",
    "C44_one_line_refuted",
    "C44_small_id_refuted",
    "C44_orphan_entry_refuted",
    "C44_parent_target_refuted",
    "C44_overflow_refuted",
    "C44_blank_part_refuted",
    "C44_dangling_refuted"
   ],
   "note": "repair.rs modelled function by function; lossy decoding and hash orders quantified over. The id and listing theorem is for UTF-8 files with the end tag on its own line and no u32 overflow; outside that refuted. C44_made reads the package relationships that repair makes; in a package without document properties they dangle (C44_dangling_refuted)."
  },
  {
   "property": "C45",
   "status": "proved",
   "theorems": [
    "C45_merge"
   ],
   "note": "Any interleaving of adding slides and presentations."
  },
  {
   "property": "C46",
   "status": "proved",
   "theorems": [
    "C46_section_xml_reads_back"
   ],
   "note": "slide indexes computed without wrapping"
  },
  {
   "property": "C47",
   "status": "proved",
   "theorems": [
    "C47_authors_xml_reads_back",
    "C47_comments_xml_reads_back"
   ],
   "note": ""
  },
  {
   "property": "C48",
   "status": "proved",
   "theorems": [
    "C48_relationships_round_trip",
    "C48_relationships_read",
    "C48_extended_properties_refuted",
    "C48_unescaped_target_refuted"
   ],
   "note": "exact domain in statement; two refutations"
  },
  {
   "property": "C49",
   "status": "proved",
   "theorems": [
    "C49_table_shows",
    "C49_cell_looks",
    "C49_size_refuted",
    "C49_color_refuted",
    "C49_center_refuted"
   ],
   "note": "Colours must be hexadecimal (they are written unescaped) and sizes at most 42949672 points; refuted outside. Centred text and the middle are not written and are shown to the left, at the top (C49_center_refuted)."
  },
  {
   "property": "C50",
   "status": "proved",
   "theorems": [
    "C50_title",
    "C50_bullets",
    "C50_table",
    "C50_shapes",
    "C50_figures",
    "C50_pictures",
    "C50_connectors",
    "C50_charts",
    "C50_bullets_dropped_refuted",
    "C50_table_dropped_refuted",
    "C50_table_hides_bullets_refuted",
    "C50_custom_bullet_refuted",
    "C50_font_refuted",
    "C50_shape_color_refuted",
    "C50_basic_title_refuted",
    "C50_title_look",
    "C50_transition",
    "C50_figure_refuted"
   ],
   "note": "domain: texts of XML characters, colours/fonts/custom bullets without markup; refutations for the dropped content and the unescaped values. Looks (title, bullets with marks and colours, table cells, pictures, shape paint, chart frames, transition) are part of the statements."
  },
  {
   "property": "C51",
   "status": "proved",
   "theorems": [
    "C51_names_distinct",
    "C51_closed",
    "C51_content_types",
    "C51_plain_closed",
    "C51_plain_content_types",
    "C51_jump_refuted",
    "C51_font_names_refuted"
   ],
   "note": "Distinct names, closed relationships, right content types, overrides name parts; refuted outside the domain."
  },
  {
   "property": "C52",
   "status": "proved",
   "theorems": [
    "C52_lazy",
    "C52_content_types_refuted",
    "C52_missing_slide_refuted"
   ],
   "note": "Lazy writer equals eager writer up to order; refuted outside."
  },
  {
   "property": "C53",
   "status": "proved",
   "theorems": [
    "C53_slide",
    "C53_deck_slide",
    "C53_deck",
    "C53_code_refuted",
    "C53_all_text_refuted"
   ],
   "note": "Slide part and whole deck. Refuted: code block text is lost; all_text repeats title and body and omits tables."
  },
  {
   "property": "C54",
   "status": "proved",
   "theorems": [
    "C54_any_file",
    "C54_import",
    "C54_again",
    "C54_title_refuted",
    "C54_lost_refuted",
    "C54_again_refuted"
   ],
   "note": "Any file: exactly what the importer takes from what the reader gives. Generated decks: what is kept, and a fixed point after one import. Refuted: deck titles with an ampersand, pictures, notes, charts and shape looks, body beside a table. The title part assumes a title and time stamp that need no escaping in the core properties (plain_title)."
  },
  {
   "property": "C55",
   "status": "proved",
   "theorems": [
    "C55_create",
    "C55_tables",
    "C55_charts",
    "C55_merge",
    "C55_merge_fails",
    "C55_info",
    "C55_tables_count_refuted",
    "C55_features_refuted",
    "C55_layout_refuted"
   ],
   "note": "Tool handlers after JSON decoding; the disk is a function from paths to packages. Refuted: the table count, the layout argument, pictures and charts in summaries."
  },
  {
   "property": "C56",
   "status": "proved",
   "theorems": [
    "C56_show",
    "C56_pen",
    "C56_no_show",
    "C56_show_refuted"
   ],
   "note": "Defaults of absent attributes are those of the file format; narration, timings and custom lists refuted."
  },
  {
   "property": "C57",
   "status": "proved",
   "theorems": [
    "C57_handout",
    "C57_handout_part",
    "C57_master",
    "C57_master_bare",
    "C57_header_refuted",
    "C57_ignored_refuted"
   ],
   "note": "Header text on the slide master and six settings refuted."
  },
  {
   "property": "C58",
   "status": "proved",
   "theorems": [
    "C58_slide_layout",
    "C58_layouts"
   ],
   "note": "Follows the chain slide, layout, master and back through relationships resolved by the independent resolver."
  },
  {
   "property": "C59",
   "status": "proved",
   "theorems": [
    "C59_theme",
    "C59_default_theme",
    "C59_palette",
    "C59_office_fonts_refuted"
   ],
   "note": "Office theme fonts refuted."
  },
  {
   "property": "C60",
   "status": "proved",
   "theorems": [
    "C60_signature",
    "C60_signer_refuted"
   ],
   "note": "The part is a description only: no digest or signature value is computed by the code, and none is claimed."
  },
  {
   "property": "C61",
   "status": "proved",
   "theorems": [
    "C61_ink",
    "C61_empty_refuted"
   ],
   "note": "Empty ink refuted. Points are the whole numbers coordinates are cut to; opacity is the text of the attribute."
  },
  {
   "property": "C62",
   "status": "proved",
   "theorems": [
    "C62_flowchart",
    "C62_chain_refuted",
    "C62_late_caption_refuted",
    "C62_two_groups_refuted",
    "C62_nested_refuted",
    "C62_backwards_refuted",
    "C62_order_refuted",
    "C62_arrow_refuted"
   ],
   "note": "Written charts are given by an independent grammar; places are stated for up to 800 parts because coordinates are 32 bit numbers."
  },
  {
   "property": "C63",
   "status": "proved",
   "theorems": [
    "C63_sequence",
    "C63_dashes_refuted",
    "C63_self_refuted",
    "C63_remark_refuted",
    "C63_late_name_refuted",
    "C63_seventh_refuted"
   ],
   "note": "Written diagrams are given by an independent grammar; up to 1000 participants and messages because coordinates are 32 bit numbers."
  },
  {
   "property": "C64",
   "status": "proved",
   "theorems": [
    "C64_timeline",
    "C64_title_refuted",
    "C64_gantt",
    "C64_gantt_times_refuted",
    "C64_gantt_sections_refuted",
    "C64_journey",
    "C64_git",
    "C64_git_branch_refuted",
    "C64_git_unknown_refuted",
    "C64_git_tag_refuted",
    "C64_pie",
    "C64_pie_disc_refuted"
   ],
   "note": "Numbers and percentages of pies are quantified functions (floating point)."
  },
  {
   "property": "C65",
   "status": "proved",
   "theorems": [
    "C65_state",
    "C65_state_start_refuted",
    "C65_state_names_refuted",
    "C65_state_inner_refuted",
    "C65_state_sides_refuted",
    "C65_state_covered_refuted",
    "C65_class",
    "C65_class_arrows_refuted",
    "C65_class_heir_refuted",
    "C65_class_label_refuted",
    "C65_class_bare_refuted",
    "C65_class_one_line_refuted",
    "C65_class_long_refuted",
    "C65_er",
    "C65_er_names_refuted",
    "C65_er_card_refuted",
    "C65_er_cards_refuted",
    "C65_er_places_refuted"
   ],
   "note": "Written diagrams are given by an independent grammar; whether a text has an alphabetic character is a quantified function. Class names must differ."
  },
  {
   "property": "C66",
   "status": "proved",
   "theorems": [
    "C66_title",
    "C66_heading",
    "C66_unknown",
    "C66_lookalike_refuted",
    "C66_remark_refuted",
    "C66_moved",
    "C66_centred",
    "C66_runs_off_refuted",
    "C66_wide_refuted"
   ],
   "note": "Kinds, titles and the sizes of slide and title are given as a table of their own."
  },
  {
   "property": "C67",
   "status": "proved",
   "theorems": [
    "C67_mindmap",
    "C67_leaves_refuted",
    "C67_blanks_refuted",
    "C67_root_refuted",
    "C67_second_root_refuted",
    "C67_quadrant",
    "C67_quadrant_names_refuted",
    "C67_quadrant_colon_refuted"
   ],
   "note": "Sine and cosine for the rings and the reading of decimal numbers are quantified functions with bounds as hypotheses."
  },
  {
   "property": "C68",
   "status": "proved",
   "theorems": [
    "C68_page",
    "C68_nothing",
    "C68_loose_text_refuted",
    "C68_picture_refuted",
    "C68_short_refuted",
    "C68_nested_list_refuted",
    "C68_menu_refuted",
    "C68_nested_table_refuted"
   ],
   "note": "The tree the HTML library builds and what it finds for a selector are the inputs. White space is ASCII white space."
  },
  {
   "property": "C69",
   "status": "proved",
   "theorems": [
    "C69_grouped",
    "C69_linear",
    "C69_bounds",
    "C69_items_refuted",
    "C69_quote_refuted",
    "C69_code_refuted",
    "C69_none_refuted",
    "C69_heading_refuted"
   ],
   "note": "Texts must be such as XML can hold; end to end through the writer and the reader."
  },
  {
   "property": "C70",
   "status": "proved",
   "theorems": [
    "C70_proposal",
    "C70_training",
    "C70_status",
    "C70_technical",
    "C70_simple"
   ],
   "note": "End to end through the writer and the reader."
  },
  {
   "property": "C71",
   "status": "proved",
   "theorems": [
    "C71_center",
    "C71_grid",
    "C71_row",
    "C71_column",
    "C71_distribute",
    "C71_distribute_one",
    "C71_too_wide_refuted",
    "C71_too_many_refuted"
   ],
   "note": "u32 arithmetic wraps as in a release build."
  },
  {
   "property": "C72",
   "status": "proved",
   "theorems": [
    "C72_deck",
    "C72_no_slides",
    "C72_count_only",
    "C72_title_refuted"
   ],
   "note": "End to end through the writer and the reader."
  },
  {
   "property": "C73",
   "status": "proved",
   "theorems": [
    "C73_simple",
    "C73_data",
    "C73_data_widths",
    "C73_header",
    "C73_quick",
    "C73_quick_widths",
    "C73_on_slide",
    "C73_no_columns_refuted"
   ],
   "note": "Widths given in inches are taken after conversion."
  },
  {
   "property": "C74",
   "status": "proved",
   "theorems": [
    "C74_core",
    "C74_core_fields",
    "C74_app",
    "C74_dates_refuted",
    "C74_revision_refuted",
    "C74_app_escaped_refuted",
    "C74_app_after_reading_refuted"
   ],
   "note": "The clock is an input."
  },
  {
   "property": "C75",
   "status": "proved",
   "theorems": [
    "C75_back",
    "C75_listed",
    "C75_numbers",
    "C75_resolve",
    "C75_types",
    "C75_declared",
    "C75_theme_id_refuted",
    "C75_number_again_refuted",
    "C75_theme_back_refuted",
    "C75_types_back_refuted",
    "C75_types_escaped_refuted"
   ],
   "note": "Texts that need no escaping."
  },
  {
   "property": "C76",
   "status": "proved",
   "theorems": [
    "C76_layout",
    "C76_master",
    "C76_master_numbers",
    "C76_theme",
    "C76_notes",
    "C76_slide",
    "C76_slide_kept",
    "C76_slide_set",
    "C76_slide_empty",
    "C76_slide_layout",
    "C76_master_again_refuted",
    "C76_theme_escaped_refuted",
    "C76_theme_after_reading_refuted",
    "C76_layout_after_reading_refuted",
    "C76_master_after_reading_refuted",
    "C76_notes_back_refuted",
    "C76_slide_title_refuted"
   ],
   "note": "The slide read back uses the reader of C53."
  },
  {
   "property": "C77",
   "status": "proved",
   "theorems": [
    "C77_json",
    "C77_status",
    "C77_lines",
    "C77_output",
    "C77_stem",
    "C77_overwrites_refuted",
    "C77_format",
    "C77_merge",
    "C77_merge_fails"
   ],
   "note": "Arguments after clap; the disk accepts the file."
  },
  {
   "property": "C78",
   "status": "proved",
   "theorems": [
    "C78_close",
    "C78_exact",
    "C78_grows",
    "C78_range",
    "C78_ends",
    "C78_ratio_within",
    "C78_ratio_close",
    "C78_ratio_ends",
    "C78_ratio_grows",
    "C78_percent",
    "C78_percent_ends",
    "C78_placed",
    "C78_placed_default",
    "C78_coordinate",
    "C78_coordinate_grows",
    "C78_back",
    "C78_back_refuted",
    "C78_decimal_refuted",
    "C78_scaled_width",
    "C78_scaled_height",
    "C78_scaled_refuted"
   ],
   "note": "IEEE 754 as formalized by Flocq; uses the axioms of the real numbers and classical logic of the standard library."
  },
  {
   "property": "C79",
   "status": "proved",
   "theorems": [
    "C79_lighter",
    "C79_lighter_grows",
    "C79_lighter_ends",
    "C79_darker",
    "C79_darker_grows",
    "C79_darker_ends",
    "C79_opacity",
    "C79_transparent",
    "C79_mix",
    "C79_mix_ends",
    "C79_mix_refuted",
    "C79_gray",
    "C79_gray_again",
    "C79_gray_refuted",
    "C79_nan_refuted"
   ],
   "note": "IEEE 754 as formalized by Flocq; uses the axioms of the real numbers and classical logic of the standard library."
  },
  {
   "property": "C80",
   "status": "proved",
   "theorems": [
    "C80_range",
    "C80_fits",
    "C80_large",
    "C80_grows",
    "C80_fits_refuted",
    "C80_contrast",
    "C80_middle_refuted",
    "C80_panic_refuted"
   ],
   "note": "IEEE 754 as formalized by Flocq; uses the axioms of the real numbers and classical logic of the standard library. White space of Unicode is any function."
  },
  {
   "property": "C81",
   "status": "proved",
   "theorems": [
    "C81_shown",
    "C81_sorted",
    "C81_presets",
    "C81_angle_refuted",
    "C81_color_refuted"
   ],
   "note": "Colours are hexadecimal, angles fit in 32 bits."
  },
  {
   "property": "C82",
   "status": "proved",
   "theorems": [
    "C82_video_kind",
    "C82_audio_kind",
    "C82_video_only",
    "C82_audio_only",
    "C82_video_type",
    "C82_audio_type",
    "C82_video_shown",
    "C82_audio_shown",
    "C82_options_refuted",
    "C82_sound_options_refuted",
    "C82_part",
    "C82_part_only",
    "C82_part_distinct",
    "C82_image_distinct",
    "C82_image",
    "C82_image_type",
    "C82_tif_refuted",
    "C82_part_type_refuted"
   ],
   "note": "Lower case is modelled for ASCII."
  },
  {
   "property": "C83",
   "status": "proved",
   "theorems": [
    "C83_shown",
    "C83_looks",
    "C83_aligned",
    "C83_columns",
    "C83_size_refuted",
    "C83_ragged_refuted",
    "C83_center_refuted",
    "C83_below_refuted",
    "C83_line_refuted",
    "C83_font_refuted",
    "C83_points_refuted"
   ],
   "note": "Border widths are any integers: the float computation of CellBorder::new is not modelled."
  },
  {
   "property": "C84",
   "status": "proved",
   "theorems": [
    "C84_shown",
    "C84_added",
    "C84_level",
    "C84_space",
    "C84_color",
    "C84_format",
    "C84_baseline",
    "C84_right",
    "C84_preset",
    "C84_style_refuted",
    "C84_line_refuted",
    "C84_points_refuted",
    "C84_escape_refuted"
   ],
   "note": "Upper case is modelled for ASCII."
  },
  {
   "property": "C85",
   "status": "proved",
   "theorems": [
    "C85_title",
    "C85_blank",
    "C85_bullets",
    "C85_columns",
    "C85_objects",
    "C85_table",
    "C85_ids",
    "C85_dropped_refuted",
    "C85_size_refuted"
   ],
   "note": "Sizes are written without the factor 100 outside the two-column layout (C85_size_refuted); most layouts drop everything but texts (C85_dropped_refuted)."
  }
 ]
}
