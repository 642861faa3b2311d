# Formal model of ppt-rs in Coq

## What this is

`rocq/theories` holds a model of yingkitw/ppt-rs (the pinned commit in `/repo`), written as total Gallina functions, function by
function, and theorems about it. `properties.jsonl` states the properties in English, `MANIFEST.json` maps each to its theorems,
`seeded/LOG.jsonl` records the experiments with wrong programs.

Build: `cd rocq && coq_makefile -f _CoqProject -o Makefile && make -j4` (about 15 minutes on four cores).

## Conventions

* `String`, `&str` and `Vec<u8>` are Coq `string`: a sequence of bytes, the UTF-8 encoding. What the code does with ASCII patterns
  (replace, find, split, starts_with) is the same on bytes and on characters. Where the code works on characters (slicing, the HTML
  tokenizer) the model does so too, with an explicit panic at a broken character boundary.
* Machine integers: `nat` or `N`; where a sum or product can leave the type, the model wraps as a release build does (`Num.v`) and the
  theorem names the domain, with a refutation beyond it.
* A panic is a value: `outcome` = `Ret v | Panic` (`ColorModel.v`).
* `&mut self` methods return the new state; a history is a fold over a list of operations.
* Loops over text become recursion with fuel; the fuel is the length of the text and theorems show that it never runs out where that matters.
* `HashMap`/`HashSet` are std++ `gmap`s, or lists in an arbitrary order: a theorem about something iterated holds for every order.
* What is outside the crate (Unicode tables, the Markdown tokenizer, image decoding, floating-point layout) enters as universally
  quantified functions or inputs. There is no axiom and no parameter. Floating-point measures and colours (C78 to C80) are computed by Flocq's IEEE 754 operations.
* Files: `XModel.v` the model, every definition with the file and lines it models and what was simplified; `XSpec.v` the
  specification; it uses the data types of the model (the caller's input) and, where named below, a few of its functions; `XProofs.v` and the like lemmas; `XProps.v` nothing but the theorems, closed by
  `exact` (a refutation may compute its witness in place), with `Print Assumptions` below and an `Example` that a non-trivial case meets the hypotheses; `XRefute.v` witnesses.
* A theorem with the suffix `_refuted` shows, on the same model, that the plausible stronger claim is false. Each is a finding about the
  code.

## Trusted base

* The kernel of Coq 8.16.1 (`coqc`, and `coqchk` over all compiled files).
* `Print Assumptions` answers "Closed under the global context" for each of the theorems in the manifest except those that speak of floating-point numbers (C78 to C80),
  checked for all of them. Those rest on axioms of the standard library only, the ones of its real numbers and of classical logic, through Flocq:
  `ClassicalDedekindReals.sig_forall_dec`, `ClassicalDedekindReals.sig_not_dec`, `FunctionalExtensionality.functional_extensionality_dep` and
  `Classical_Prop.classic`. No axiom of another library is used and none was added. (The libraries that are loaded declare axioms, such as those of
  `Coq.ssr.ssrunder`, which `coqchk` lists for the whole context; no theorem depends on them.)
* Libraries: the Coq standard library, std++ (`gmap`, used by the package, editor, repair and compression models) and Flocq (IEEE 754 arithmetic, C78 to C80).
  `value` and `B2R` are Flocq's reading of a floating-point number as a real one.
* The translation from Rust to Gallina, made by hand. Nothing but the cited lines and review ties it to the code.
* The specification files: the XML reader (`XmlSpec.v`), the readers of relationship and content-type parts (`OpcSpec.v`), the
  element paths (`XmlPath.v`), the looks (`LookSpec.v`) and the `*Spec.v` beside each model say what the English words mean.
  Functions of the model that specifications use: `lines` and `chars` (C80), `base64_encode` and the style sheets and script of the HTML export
  (`HtmlWant.v`; C26 is about the encoder), the list of void and skipped tags and `table_from_string_rows` (`HtmlInSpec.v`,
  `MdParseSpec.v`; C40 is about the latter), `from_uri` (`RelsSpec.v`), `site_index`
  (`SlideWant.v`; C38 refutes that it is right), `clean` and `para_text` (`SlideBackSpec.v`).
* The text of parts that refer to nothing and carry nothing of the caller (masters, layouts, themes, view settings, table styles, the
  embedded sample workbook, the signature), the ink part and the time of writing are arbitrary strings in the deck model (the record
  `statics` of `DeckModel.v`): the theorems about decks hold whatever they are, and say nothing about them.

## The properties: what is modelled and how each is proved

### C01 Package is a last-write-wins part store

* Model: PackageModel: the part store as a `gmap`; get, add, remove, has, list.
* Proof: A history is folded; the specification scans it backwards for the last write. Induction over the history.
* Status: proved. Theorems: `C01_last_write_wins`, `C01_observers`.
* Note: part store as a gmap; HashMap iteration order and duplicate ZIP entry names covered

### C02 Saving and reopening a package loses nothing

* Model: PackageModel: an archive is a list of (name, bytes) entries, the directory test a parameter; save writes the parts in any order.
* Proof: Permutations of the entries of a map give the map back; the exact theorem says which parts are lost (those whose names look like directories).
* Status: proved. Theorems: `C02_open`, `C02_save_open`, `C02_save_open_exact`.
* Note: ZIP entries as a list in any order; directory test is a parameter; exact theorem says which parts are lost; ZIP compression itself is trusted

### C03 Relationship targets resolve to normal paths inside the package

* Model: ResolveModel: split at slashes, stack of segments.
* Proof: The specification is an inductive walk through directories; induction over the segments. Absolute targets with dots and the root part are refuted.
* Status: proved. Theorems: `C03_resolves_by_walking`, `C03_every_target_has_segments`, `C03_sibling_directory`, `C03_below`, `C03_absolute`, `C03_absolute_ignores_source`, `C03_source_directory`.
* Outside the stated domain, refuted with witnesses: `C03_absolute_dots_refuted`, `C03_root_part_refuted`.

### C04 XML escaping is safe and lossless

* Model: EscapeModel: escape_xml character by character.
* Proof: An independent entity decoder inverts it; no markup character is left. Structural induction.
* Status: proved. Theorems: `C04_escape_safe`, `C04_escape_lossless`, `C04_escape_injective`, `C04_escape_plain`.
* Note: Escaped form decodes (five predefined entities) to exactly the text, contains no < > " '

### C05 All escape helpers in the crate agree

* Model: EscapeModel: every escape helper, chained `replace` passes included.
* Proof: Equality with escape_xml by induction; the theme writer differs (refuted).
* Status: proved. Theorems: `C05_escapers_agree`, `C05_escape_concat`.
* Outside the stated domain, refuted with witnesses: `C05_theme_escaper_differs_refuted`.
* Note: All full escapers equal escape_xml. The theme writer's three-character attribute escaper is a different function (C05_theme_escaper_differs_refuted), not covered by the claim

### C06 XmlWriter output cannot be broken out of

* Model: XmlWriterModel: the calls of XmlWriter as functions on the buffer.
* Proof: The independent XML reader reads the written tree back, for every tree of calls.
* Status: proved. Theorems: `C06_writer_roundtrip`.
* Outside the stated domain, refuted with witnesses: `C06_control_character_refuted`, `C06_attribute_tab_refuted`.
* Note: For values of characters XML can carry; control characters and attribute tabs are refuted

### C07 Editor slide operations behave as list operations

* Model: EditorModel: editor.rs function by function on the part store.
* Proof: Abstraction to a list of slide texts, forward simulation of every operation, induction over sessions.
* Status: proved. Theorems: `C07_editor_is_list`, `C07_open_numbered`.
* Note: refinement over whole sessions; slide XML rendering and from_utf8_lossy are universally quantified functions

### C08 Rejected editor operations change nothing

* Model: EditorModel.
* Proof: Every rejected operation returns the package unchanged; exact conditions of rejection.
* Status: proved. Theorems: `C08_failure_changes_nothing`, `C08_fails_iff_out_of_range`.

### C09 Editor operations touch only slide parts and the package indexes

* Model: EditorModel.
* Proof: Frame theorem over all part names outside the touched ones.
* Status: proved. Theorems: `C09_other_parts_untouched`.

### C10 Structural edits leave consistent indexes

* Model: EditorModel: the rebuilt index parts are the real texts.
* Proof: Read back with the independent XML reader.
* Status: proved. Theorems: `C10_indexes_consistent`.
* Outside the stated domain, refuted with witnesses: `C10_add_slide_refuted`, `C10_notes_master_refuted`.
* Note: read back with the independent XML reader; refutations for add_slide and for the notes master reference

### C11 Relationship ids of a generated presentation are unique

* Model: GenModel, FontsModel: the relationship part of the presentation as the real text.
* Proof: Read back; NoDup of the ids by arithmetic.
* Status: proved. Theorems: `C11_relationship_ids_distinct`.
* Outside the stated domain, refuted with witnesses: `C11_preassigned_font_id_refuted`.
* Note: font ids assigned by the generator; caller-chosen ids refuted

### C12 Every reference in presentation.xml resolves to the right part

* Model: GenModel: presentation.xml and its relationships.
* Proof: Both read back; every reference leads to the relationship of the right type and target.
* Status: proved. Theorems: `C12_references_resolve`.

### C13 Chart and notes numbering of a generated deck is consistent

* Model: DeckModel: the counters and loops of builder.rs over whole decks.
* Proof: Induction over the slides, relating running counters to positions.
* Status: proved. Theorems: `C13_chart_parts`, `C13_slide_charts`, `C13_notes_parts`, `C13_notes`, `C13_no_notes`.
* Note: Chart/notes numbering, links and link-backs of whole decks.

### C14 Identical images are stored once and each image keeps its own bytes

* Model: DeckModel: media registry.
* Proof: Invariant of the registry by induction over the images.
* Status: proved. Theorems: `C14_media_parts`, `C14_images`.
* Note: Media parts are the distinct (bytes, extension) pairs in first-use order; linked with own bytes; shared iff equal.

### C15 Slide XML and slide relationships use the same ids

* Model: DeckModel and SlideModel: both id computations.
* Proof: The ids used in the slide part are those of its relationship part, on loadable images and free ids; refuted otherwise.
* Status: proved. Theorems: `C15_slide_relationships`.
* Outside the stated domain, refuted with witnesses: `C15_unloadable_image_refuted`, `C15_taken_id_refuted`.
* Note: On loadable images and free hyperlink ids; refuted outside.

### C16 Shape ids on a generated slide are unique

* Model: SlideModel: ids of all drawing objects.
* Proof: NoDup for all counts; refuted for ids chosen by the caller.
* Status: proved. Theorems: `C16_drawing_ids_distinct`.
* Outside the stated domain, refuted with witnesses: `C16_chosen_id_refuted`.
* Note: drawing ids distinct for all counts; refuted for caller-chosen ids

### C17 Every media extension in a generated deck has a content type

* Model: GenModel/DeckModel: content-type defaults and media names.
* Proof: Exact characterisation; every other format refuted.
* Status: proved. Theorems: `C17_media_types`.
* Outside the stated domain, refuted with witnesses: `C17_other_formats_refuted`.
* Note: For jpg/png/gif; refuted for every other format.

### C18 Generated decks are read back with all slides in order

* Model: ReaderModel: parse of the presentation and its relationships, sort by number.
* Proof: Sortedness and stability of the order; refuted for the order of the slide list.
* Status: proved. Theorems: `C18_any_file`, `C18_deck`.
* Outside the stated domain, refuted with witnesses: `C18_list_order_refuted`.
* Note: Any file: order of relationship numbers; generated decks: all slides in order. Refuted: the order of presentation.xml's slide list is not used.

### C19 Table merge regions never overlap or leave the table

* Model: MergeModel: MergeMap.
* Proof: Invariant over histories; overlap iff a common cell; wrapping arithmetic refuted.
* Status: proved. Theorems: `C19_regions_disjoint_inside`, `C19_accepted_iff_free`.
* Outside the stated domain, refuted with witnesses: `C19_overflow_refuted`.
* Note: usize arithmetic is release wrapping; regions whose end fits in usize; overflow refuted

### C20 Merge state of every cell is right

* Model: MergeModel.
* Proof: cell_state against the set of covered cells.
* Status: proved. Theorems: `C20_cell_state`.

### C21 Sections partition slides

* Model: SectionModel: SectionManager with sorted insertion.
* Proof: Invariant over histories; lookup, removal and renaming by name.
* Status: proved. Theorems: `C21_sections_partition`, `C21_add_refused_iff_overlap`, `C21_remove`, `C21_find`, `C21_rename`.
* Outside the stated domain, refuted with witnesses: `C21_overflow_refuted`.
* Note: sections whose end fits in usize; overflow refuted

### C22 Comment authors and comment indexes are stable

* Model: CommentsModel: author list and comments.
* Proof: Invariant over histories of calls.
* Status: proved. Theorems: `C22_authors_stable`, `C22_comment_indexes`.
* Outside the stated domain, refuted with witnesses: `C22_mixed_refuted`.
* Note: fewer than 2^32 calls; comments added through add_comment (mixing with add refuted)

### C23 Embedded fonts are each listed once

* Model: FontsModel: font list.
* Proof: The written list read back: each typeface once, in order of first use, with its variants.
* Status: proved. Theorems: `C23_font_list`, `C23_assign_keeps_fonts`.
* Outside the stated domain, refuted with witnesses: `C23_distinct_parts_refuted`, `C23_panose_unescaped_refuted`.
* Note: part-name collision and unescaped panose recorded as refutations

### C24 Relationship collections hand out fresh ids

* Model: RelsModel: the collection with its id counter and u32 parsing of ids.
* Proof: Freshness invariant over histories.
* Status: proved. Theorems: `C24_add_fresh`, `C24_add_with_id_get`.
* Outside the stated domain, refuted with witnesses: `C24_overflow_refuted`.
* Note: explicit numbers and calls stay inside u32; overflow refuted

### C25 Hex colours round-trip

* Model: ColorModel: hex printing and parsing over bytes, from_str_radix with its plus sign.
* Proof: Round trip, exact language accepted, panics.
* Status: proved. Theorems: `C25_hex_round_trip`, `C25_color_value_round_trip`, `C25_accepted_iff_denotes`, `C25_no_panic_on_ascii`, `C25_invert_involutive`, `C25_color_value_read`.
* Outside the stated domain, refuted with witnesses: `C25_panic_refuted`, `C25_sign_refuted`.
* Note: exact acceptance language incl. the plus-sign quirk; panics only outside ASCII (both shown)

### C26 Base64 encoding and decoding are inverse

* Model: Base64Model: encoder and decoder.
* Proof: Induction over blocks of three bytes.
* Status: proved. Theorems: `C26_encode_is_rfc4648`, `C26_encode_shape`, `C26_decode_inverse`.
* Note: trim modelled for ASCII white space

### C27 Image probing is total and exact

* Model: ProbeModel: byte probing with explicit out-of-bounds panic.
* Proof: Totality by case analysis and measure; exactness on well-formed headers; JPEG by induction over segments.
* Status: proved. Theorems: `C27_total`, `C27_jpeg_total`, `C27_png`, `C27_gif`, `C27_bmp`, `C27_webp_lossy`, `C27_webp_lossless`, `C27_jpeg`, `C27_auto`.
* Outside the stated domain, refuted with witnesses: `C27_sof1_refuted`, `C27_auto_panics_refuted`.
* Note: Reading dimensions is total (fuel never exhausted, no out-of-bounds access) and exact on PNG, GIF, BMP, WebP and JPEG headers. Refuted: SOF1 JPEGs have no dimensions; format detection (auto) panics exactly on 4- or 5-byte inputs that start neither like PNG nor JPEG.

### C28 Inline formatting keeps the text

* Model: InlineModel: inline formatting state machine.
* Proof: An erasure specification; text kept, runs with their looks.
* Status: proved. Theorems: `C28_tokens_spell_text`, `C28_looks`, `C28_text_kept`, `C28_plain`, `C28_code_verbatim`, `C28_runs`.
* Outside the stated domain, refuted with witnesses: `C28_underscore_refuted`.
* Note: for every text with at least one ordinary character; a text of markers only is shown as it is

### C29 XML minimisation only removes whitespace

* Model: CompressModel: minimize_xml.
* Proof: Subsequence and equality specifications over the state machine.
* Status: proved. Theorems: `C29_only_whitespace_removed`, `C29_never_longer`, `C29_tags_kept`.
* Outside the stated domain, refuted with witnesses: `C29_text_refuted`, `C29_attribute_refuted`, `C29_idempotent_refuted`.
* Note: plus refutations: text, attribute values after a lone quote, idempotence

### C30 Size analysis accounts for every part

* Model: CompressModel: size analysis.
* Proof: Sum over categories equals the total.
* Status: proved. Theorems: `C30_sizes_add_up`, `C30_categories`, `C30_counts`, `C30_order_irrelevant`.
* Outside the stated domain, refuted with witnesses: `C30_upper_case_refuted`.

### C31 Removing unused media never breaks a used image

* Model: CompressModel: removal options and the whole compression.
* Proof: Exact set of removed parts and exact remainder.
* Status: proved. Theorems: `C31_other_parts_kept`, `C31_named_media_kept`, `C31_removed_only_if_unnamed`, `C31_xml_keeps_parts`, `C31_default_keeps_parts`, `C31_exact`.
* Outside the stated domain, refuted with witnesses: `C31_used_media_refuted`, `C31_notes_refuted`.
* Note: restated with its exact domain; the stronger claim is refuted

### C32 Markdown headings become slides in order

* Model: MdParseModel: the step function on Markdown events.
* Proof: Simulation against a specification of decks by blocks; prefix and no-panic for every event stream.
* Status: proved. Theorems: `C32_deck`, `C32_titles`, `C32_failure`, `C32_prefix`, `C32_no_panic`.
* Outside the stated domain, refuted with witnesses: `C32_nested_list_refuted`, `C32_paragraphs_refuted`, `C32_bold_refuted`, `C32_struck_refuted`, `C32_panic_refuted`, `C32_headings_refuted`, `C32_two_tables_refuted`, `C32_links_refuted`.
* Note: Any trim function, picture loader and diagram generator; events of any document of flat blocks (the exact domain is plain_block). C32_prefix and C32_no_panic hold for every event stream. Refuted for nested lists, multi-paragraph items and quotes, bold across breaks, text struck out within bold, headings in quotes or before the first slide, two tables on a slide, link targets, and some inline HTML, which panics.

### C33 HTML import respects its limits and keeps order

* Model: HtmlInModel: tokenizer, entities, styles, slide builder.
* Proof: Tokens read back from written pages; simulation against a specification of documents; limits, termination and panics for every text.
* Status: proved. Theorems: `C33_ends`, `C33_max_slides`, `C33_max_bullets`, `C33_prefix`, `C33_no_panic`, `C33_tokens`, `C33_deck`, `C33_titles`.
* Outside the stated domain, refuted with witnesses: `C33_skipped_void_refuted`, `C33_script_refuted`, `C33_inline_space_refuted`, `C33_bold_cell_refuted`, `C33_nested_list_refuted`, `C33_limit_refuted`, `C33_paragraphs_refuted`, `C33_entity_refuted`, `C33_panic_refuted`, `C33_exported_refuted`.
* Note: Whole importer modelled: tokenizer, entities, inline styles, slide builder. Unicode tables (trim, lower, upper, alphanumeric), font-size parsing (floats) and image loading are universally quantified functions. Exact deck proved for documents of flat blocks and unstyled elements; limits, termination, prefix stability and no panic for every page. Refutations record what is lost.

### C34 Markdown export escapes reversibly

* Model: ExportModel: Markdown export.
* Proof: An independent reader of the exported text; escape round trip.
* Status: proved. Theorems: `C34_roundtrip`, `C34_inert`, `C34_document`, `C34_front`.
* Outside the stated domain, refuted with witnesses: `C34_title_refuted`, `C34_yaml_refuted`, `C34_bar_refuted`, `C34_lines_refuted`, `C34_reference_refuted`, `C34_fence_refuted`, `C34_image_refuted`.
* Note: Round trip for all strings; whole document read back; refutations outside the domain.

### C35 HTML export shows the presentation and escapes code and notes

* Model: ExportModel: HTML export.
* Proof: The page read back with the independent reader.
* Status: proved. Theorems: `C35_document`, `C35_escaped`.
* Outside the stated domain, refuted with witnesses: `C35_unescaped_refuted`, `C35_table_refuted`.
* Note: Whole page read back for arbitrary code and notes; unescaped titles and dropped tables refuted.

### C36 Document properties count slides and titles consistently

* Model: DocPropsModel: app.xml and core.xml.
* Proof: Read back; counts equal lengths.
* Status: proved. Theorems: `C36_counts_and_titles`, `C36_slide_titles`, `C36_core_title`.
* Outside the stated domain, refuted with witnesses: `C36_core_title_refuted`.
* Note: Counts and titles of app.xml agree for every slide count and title list; core.xml shows the title if it needs no escaping (refuted otherwise: the title is not escaped).

### C37 Timestamps are valid dates

* Model: DocPropsModel: time stamp arithmetic.
* Proof: Arithmetic over N; exact set of valid dates, order and year.
* Status: proved. Theorems: `C37_time_of_day`, `C37_valid_date_iff`, `C37_order`, `C37_year`.
* Outside the stated domain, refuted with witnesses: `C37_month_refuted`, `C37_february_refuted`, `C37_wrong_date_refuted`.
* Note: The form and time of day are right for every second up to year 9999; the date is valid exactly under the stated condition; refuted: month 13, February 30, valid but wrong dates.

### C38 Connector geometry keeps both end points

* Model: ConnectorModel: connector XML.
* Proof: Read back; end points, arrow heads and looks; site indexes refuted.
* Status: proved. Theorems: `C38_end_points_recovered`.
* Outside the stated domain, refuted with witnesses: `C38_unescaped_color_refuted`, `C38_sites_refuted`.
* Note: End points, glued shapes and label recovered from the generated XML; the colour is written unescaped (refuted without the condition). The look of the line (geometry, width, colour, dashes, arrow heads) is part of the statement; connection sites left/right are swapped with respect to DrawingML (refuted).

### C39 Charts draw what they are given, combo charts every series once

* Model: ChartModel: all chart types.
* Proof: Templates read back: title, categories, plots with settings, series and points.
* Status: proved. Theorems: `C39_combo_each_series_once`, `C39_chart_shows`, `C39_indexes_distinct`, `C39_chart_drawn`.
* Outside the stated domain, refuted with witnesses: `C39_point_indexes_refuted`, `C39_bar_kind_refuted`, `C39_pie_drops_series_refuted`.
* Note: All 21 chart types are modelled; numbers enter as their displayed text. The refuted theorems record defects: points without indexes, bar kinds not distinguished, extra pie series dropped.

### C40 String tables become rectangular tables

* Model: TableModel: string rows to tables.
* Proof: List induction.
* Status: proved. Theorems: `C40_rectangular`, `C40_shown`.
* Outside the stated domain, refuted with witnesses: `C40_empty_rows_refuted`.
* Note: Column counts of 2^32 and more are outside the theorem; rows that are all empty panic (refuted theorem).

### C41 Two-column slides split bullets without loss

* Model: SlideModel: two-column layout.
* Proof: Columns read back from the slide part.
* Status: proved. Theorems: `C41_columns`.
* Note: both columns read back from the slide part

### C42 XML tree search is complete

* Model: XmlTreeModel: XML tree and searches.
* Proof: Induction over trees against the independent reader.
* Status: proved. Theorems: `C42_find_all_descendants`, `C42_find_descendant_first`, `C42_parse_builds_tree`, `C42_text_in_document_order`, `C42_names_and_attributes`, `C42_local_name_unique`, `C42_children`.
* Outside the stated domain, refuted with witnesses: `C42_mixed_text_refuted`, `C42_blank_run_dropped_refuted`.
* Note: xml-rs events are those of the XmlSpec reader; text order for unmixed content

### C43 A package reported valid satisfies the structural rules

* Model: ValidModel: all validation rules over an archive.
* Proof: Soundness: if nothing is reported, each structural rule holds.
* Status: proved. Theorems: `C43_required_parts`, `C43_relationships`, `C43_slide_references`, `C43_shape_ids`, `C43_slide_list`, `C43_content_types`, `C43_charts`.
* Outside the stated domain, refuted with witnesses: `C43_attribute_order_refuted`, `C43_unreadable_refuted`, `C43_malformed_refuted`, `C43_untyped_refuted`, `C43_false_alarm_refuted`.
* Note: For every archive and every order of its part names. The validator's report is modelled as the list of its issues (all of them errors). Relationship parts: texts whose tags give Id before Target before TargetMode in double quotes; refuted otherwise.

### C44 Repair fixes are reported exactly and new ids are fresh

* Model: RepairModel: detection and repair function by function.
* Proof: Exact reports; freshness of ids; insertion of list entries read back.
* Status: proved. Theorems: `C44_accounted`, `C44_clean_untouched`, `C44_frame`, `C44_slides_listed`, `C44_type_added`, `C44_made`.
* Outside the stated domain, refuted with witnesses: `C44_one_line_refuted`, `C44_small_id_refuted`, `C44_orphan_entry_refuted`, `C44_parent_target_refuted`, `C44_overflow_refuted`, `C44_blank_part_refuted`, `C44_dangling_refuted`.
* Note: repair.rs modelled function by function; lossy decoding and hash orders quantified over. The id and listing theorem is for UTF-8 files with the end tag on its own line and no u32 overflow; outside that refuted. C44_made reads the package relationships that repair makes; in a package without document properties they dangle (C44_dangling_refuted).

### C45 Merging presentations concatenates slides

* Model: DeckModel: the presentation builder.
* Proof: List induction over interleavings.
* Status: proved. Theorems: `C45_merge`.
* Note: Any interleaving of adding slides and presentations.

### C46 Section list XML reads back

* Model: SectionModel: section list XML.
* Proof: Read back.
* Status: proved. Theorems: `C46_section_xml_reads_back`.
* Note: slide indexes computed without wrapping

### C47 Comment and author parts read back

* Model: CommentsModel: comment and author parts.
* Proof: Read back.
* Status: proved. Theorems: `C47_authors_xml_reads_back`, `C47_comments_xml_reads_back`.

### C48 Relationship parts round-trip

* Model: RelsModel: relationship part writer and scanner.
* Proof: Round trip on the exact domain; read back with the independent reader.
* Status: proved. Theorems: `C48_relationships_round_trip`, `C48_relationships_read`.
* Outside the stated domain, refuted with witnesses: `C48_extended_properties_refuted`, `C48_unescaped_target_refuted`.
* Note: exact domain in statement; two refutations

### C49 A table on a slide shows its cells

* Model: TableModel: table XML.
* Proof: Read back: cells, spans, sizes, looks.
* Status: proved. Theorems: `C49_table_shows`, `C49_cell_looks`.
* Outside the stated domain, refuted with witnesses: `C49_size_refuted`, `C49_color_refuted`, `C49_center_refuted`.
* Note: Colours must be hexadecimal (they are written unescaped) and sizes at most 42949672 points; refuted outside. Centred text and the middle are not written and are shown to the left, at the top (C49_center_refuted).

### C50 A generated slide shows its content

* Model: SlideModel, ShapeModel, TableModel, ConnectorModel: slide XML of all layouts.
* Proof: Templates read back: title, bullets, table, pictures, shapes, connectors, charts, transition and their looks.
* Status: proved. Theorems: `C50_title`, `C50_bullets`, `C50_table`, `C50_shapes`, `C50_figures`, `C50_pictures`, `C50_connectors`, `C50_charts`, `C50_title_look`, `C50_transition`.
* Outside the stated domain, refuted with witnesses: `C50_bullets_dropped_refuted`, `C50_table_dropped_refuted`, `C50_table_hides_bullets_refuted`, `C50_custom_bullet_refuted`, `C50_font_refuted`, `C50_shape_color_refuted`, `C50_basic_title_refuted`, `C50_figure_refuted`.
* Note: domain: texts of XML characters, colours/fonts/custom bullets without markup; refutations for the dropped content and the unescaped values. Looks (title, bullets with marks and colours, table cells, pictures, shape paint, chart frames, transition) are part of the statements.

### C51 Generated decks are closed and fully typed packages

* Model: DeckModel: the whole package writer.
* Proof: Names distinct, every relationship resolves inside, every part typed; induction over slides.
* Status: proved. Theorems: `C51_names_distinct`, `C51_closed`, `C51_content_types`, `C51_plain_closed`, `C51_plain_content_types`.
* Outside the stated domain, refuted with witnesses: `C51_jump_refuted`, `C51_font_names_refuted`.
* Note: Distinct names, closed relationships, right content types, overrides name parts; refuted outside the domain.

### C52 Lazy generation writes the same package

* Model: DeckModel: lazy writer.
* Proof: Equality with the eager writer up to order.
* Status: proved. Theorems: `C52_lazy`.
* Outside the stated domain, refuted with witnesses: `C52_content_types_refuted`, `C52_missing_slide_refuted`.
* Note: Lazy writer equals eager writer up to order; refuted outside.

### C53 A generated slide is read back as it was described

* Model: ReaderModel, SlideModel, DeckModel.
* Proof: Generated slide parts are read back by the modelled reader.
* Status: proved. Theorems: `C53_slide`, `C53_deck_slide`, `C53_deck`.
* Outside the stated domain, refuted with witnesses: `C53_code_refuted`, `C53_all_text_refuted`.
* Note: Slide part and whole deck. Refuted: code block text is lost; all_text repeats title and body and omits tables.

### C54 Importing a saved deck

* Model: ImportModel: the importer over the modelled reader.
* Proof: Exact description from the read-back of C53; idempotence by showing that imported slides are in the domain and unchanged.
* Status: proved. Theorems: `C54_any_file`, `C54_import`, `C54_again`.
* Outside the stated domain, refuted with witnesses: `C54_title_refuted`, `C54_lost_refuted`, `C54_again_refuted`.
* Note: Any file: exactly what the importer takes from what the reader gives. Generated decks: what is kept, and a fixed point after one import. Refuted: deck titles with an ampersand, pictures, notes, charts and shape looks, body beside a table. The title part assumes a title and time stamp that need no escaping in the core properties (plain_title).

### C55 The server tools write the deck they report

* Model: McpModel: handlers of the server tools, disk as a function.
* Proof: Read-back of C53 for files written; import theorems of C54 for merging and summaries.
* Status: proved. Theorems: `C55_create`, `C55_tables`, `C55_charts`, `C55_merge`, `C55_merge_fails`, `C55_info`.
* Outside the stated domain, refuted with witnesses: `C55_tables_count_refuted`, `C55_features_refuted`, `C55_layout_refuted`.
* Note: Tool handlers after JSON decoding; the disk is a function from paths to packages. Refuted: the table count, the layout argument, pictures and charts in summaries.

### C56 Slide show settings

* Model: SettingsModel: slide show settings.
* Proof: Template read back; readers use the defaults of the format.
* Status: proved. Theorems: `C56_show`, `C56_pen`, `C56_no_show`.
* Outside the stated domain, refuted with witnesses: `C56_show_refuted`.
* Note: Defaults of absent attributes are those of the file format; narration, timings and custom lists refuted.

### C57 Print settings

* Model: SettingsModel: print settings, handout and slide master.
* Proof: Templates with optional shapes read back; numbering by cases.
* Status: proved. Theorems: `C57_handout`, `C57_handout_part`, `C57_master`, `C57_master_bare`.
* Outside the stated domain, refuted with witnesses: `C57_header_refuted`, `C57_ignored_refuted`.
* Note: Header text on the slide master and six settings refuted.

### C58 Slides get the layout they ask for

* Model: SettingsModel, DeckModel: layouts, master and relationships.
* Proof: Fixed parts computed by the kernel, relationships resolved for every slide.
* Status: proved. Theorems: `C58_slide_layout`, `C58_layouts`.
* Note: Follows the chain slide, layout, master and back through relationships resolved by the independent resolver.

### C59 Themes

* Model: SettingsModel: theme text by cut and paste.
* Proof: First matches of the patterns located in the fixed text for every name, colour and font; read back.
* Status: proved. Theorems: `C59_theme`, `C59_default_theme`, `C59_palette`.
* Outside the stated domain, refuted with witnesses: `C59_office_fonts_refuted`.
* Note: Office theme fonts refuted.

### C60 Signature part

* Model: SettingsModel: signature part.
* Proof: Template read back.
* Status: proved. Theorems: `C60_signature`.
* Outside the stated domain, refuted with witnesses: `C60_signer_refuted`.
* Note: The part is a description only: no digest or signature value is computed by the code, and none is claimed.

### C61 Ink annotations

* Model: SettingsModel: ink part.
* Proof: Induction over strokes; numerals read by an independent reader.
* Status: proved. Theorems: `C61_ink`.
* Outside the stated domain, refuted with witnesses: `C61_empty_refuted`.
* Note: Empty ink refuted. Points are the whole numbers coordinates are cut to; opacity is the text of the attribute.

### C62 Mermaid flowcharts are drawn as they read

* Model: FlowModel: reading the text and laying out.
* Proof: Line reading from the grammar; invariant over groups, loose nodes and the grid; arithmetic shown not to wrap.
* Status: proved. Theorems: `C62_flowchart`.
* Outside the stated domain, refuted with witnesses: `C62_chain_refuted`, `C62_late_caption_refuted`, `C62_two_groups_refuted`, `C62_nested_refuted`, `C62_backwards_refuted`, `C62_order_refuted`, `C62_arrow_refuted`.
* Note: Written charts are given by an independent grammar; places are stated for up to 800 parts because coordinates are 32 bit numbers.

### C63 Mermaid sequence diagrams are drawn as they read

* Model: DiagramModel: reading the text and laying out.
* Proof: Line reading from the grammar; first mentions by induction; arithmetic shown not to wrap.
* Status: proved. Theorems: `C63_sequence`.
* Outside the stated domain, refuted with witnesses: `C63_dashes_refuted`, `C63_self_refuted`, `C63_remark_refuted`, `C63_late_name_refuted`, `C63_seventh_refuted`.
* Note: Written diagrams are given by an independent grammar; up to 1000 participants and messages because coordinates are 32 bit numbers.

### C64 Mermaid time lines, Gantt charts, journeys, git graphs and pies are drawn as they read

* Model: DiagramModel: reading the text and laying out.
* Proof: Sections as deeds folded over the items; rows between two heights by induction; arithmetic shown not to wrap.
* Status: proved. Theorems: `C64_timeline`, `C64_gantt`, `C64_journey`, `C64_git`, `C64_pie`.
* Outside the stated domain, refuted with witnesses: `C64_title_refuted`, `C64_gantt_times_refuted`, `C64_gantt_sections_refuted`, `C64_git_branch_refuted`, `C64_git_unknown_refuted`, `C64_git_tag_refuted`, `C64_pie_disc_refuted`.
* Note: Numbers and percentages of pies are quantified functions (floating point).

### C65 Mermaid state, class and entity diagrams are drawn as they read

* Model: DiagramModel: reading the text and laying out.
* Proof: Line reading from the grammar; grid cells shown apart; one lemma on lines between boxes serves states and entities; entities for every order of the hash table.
* Status: proved. Theorems: `C65_state`, `C65_class`, `C65_er`.
* Outside the stated domain, refuted with witnesses: `C65_state_start_refuted`, `C65_state_names_refuted`, `C65_state_inner_refuted`, `C65_state_sides_refuted`, `C65_state_covered_refuted`, `C65_class_arrows_refuted`, `C65_class_heir_refuted`, `C65_class_label_refuted`, `C65_class_bare_refuted`, `C65_class_one_line_refuted`, `C65_class_long_refuted`, `C65_er_names_refuted`, `C65_er_card_refuted`, `C65_er_cards_refuted`, `C65_er_places_refuted`.
* Note: Written diagrams are given by an independent grammar; whether a text has an alphabetic character is a quantified function. Class names must differ.

### C66 A diagram gets the title of its kind and is moved as a whole to the middle of the slide

* Model: DiagramModel: detect_type, draw and place.
* Proof: Case distinction over the table of kinds; the fold for the bounding box shown to be the span of the shapes; saturating sums exact below the bound.
* Status: proved. Theorems: `C66_title`, `C66_heading`, `C66_unknown`, `C66_moved`, `C66_centred`.
* Outside the stated domain, refuted with witnesses: `C66_lookalike_refuted`, `C66_remark_refuted`, `C66_runs_off_refuted`, `C66_wide_refuted`.
* Note: Kinds, titles and the sizes of slide and title are given as a table of their own.

### C67 Mermaid mind maps and quadrant charts show every text at its place

* Model: DiagramModel: mind map and quadrant reading and layout.
* Proof: Induction over the written rows with the parent index as invariant; layout by Forall2 over branches, leaves and points.
* Status: proved. Theorems: `C67_mindmap`, `C67_quadrant`.
* Outside the stated domain, refuted with witnesses: `C67_leaves_refuted`, `C67_blanks_refuted`, `C67_root_refuted`, `C67_second_root_refuted`, `C67_quadrant_names_refuted`, `C67_quadrant_colon_refuted`.
* Note: Sine and cosine for the rings and the reading of decimal numbers are quantified functions with bounds as hypotheses.

### C68 Reading a web page keeps every heading, paragraph, list item, quote, code block, picture and table, in order

* Model: WebModel: parser.rs on the page tree.
* Proof: Grammar of pages as an inductive relation (WebSpec); induction over the tree with document order, white space by a relation between a text and its words.
* Status: proved. Theorems: `C68_page`, `C68_nothing`.
* Outside the stated domain, refuted with witnesses: `C68_loose_text_refuted`, `C68_picture_refuted`, `C68_short_refuted`, `C68_nested_list_refuted`, `C68_menu_refuted`, `C68_nested_table_refuted`.
* Note: The tree the HTML library builds and what it finds for a selector are the inputs. White space is ASCII white space.

### C69 A web page becomes slides that read back with every block under its heading, within the limits

* Model: WebModel: converter.rs.
* Proof: Outline of the blocks; the loops are shown to produce a paging up to the wanted number of slides (invariant on slides pushed and the current slide); read back by the deck theorem.
* Status: proved. Theorems: `C69_grouped`, `C69_linear`, `C69_bounds`.
* Outside the stated domain, refuted with witnesses: `C69_items_refuted`, `C69_quote_refuted`, `C69_code_refuted`, `C69_none_refuted`, `C69_heading_refuted`.
* Note: Texts must be such as XML can hold; end to end through the writer and the reader.

### C70 Presentations made from the built-in kinds read back with the promised pages and lines

* Model: TemplateModel: templates.rs.
* Proof: Each slide shows its page; deck theorem.
* Status: proved. Theorems: `C70_proposal`, `C70_training`, `C70_status`, `C70_technical`, `C70_simple`.
* Note: End to end through the writer and the reader.

### C71 The layout helpers put shapes that fit on the slide, centred, evenly spaced and without overlap

* Model: ArrangeModel: the layouts of prelude.rs in u32.
* Proof: Exactness of the arithmetic where things fit; closed forms of the positions; geometry by monotonicity.
* Status: proved. Theorems: `C71_center`, `C71_grid`, `C71_row`, `C71_column`, `C71_distribute`, `C71_distribute_one`.
* Outside the stated domain, refuted with witnesses: `C71_too_wide_refuted`, `C71_too_many_refuted`.
* Note: u32 arithmetic wraps as in a release build.

### C72 A quick deck reads back as the slides added to it, in order

* Model: QuickModel: QuickPptx; DeckModel create_pptx.
* Proof: The calls make the slides; deck read-back theorem; the plain slide is read as a template.
* Status: proved. Theorems: `C72_deck`, `C72_no_slides`, `C72_count_only`.
* Outside the stated domain, refuted with witnesses: `C72_title_refuted`.
* Note: End to end through the writer and the reader.

### C73 Quick tables hold exactly the given cells, with equal columns that fill ten inches

* Model: QuickModel: helpers/tables.rs.
* Proof: Induction over rows and calls; division bounds; deck theorem for the slide.
* Status: proved. Theorems: `C73_simple`, `C73_data`, `C73_data_widths`, `C73_header`, `C73_quick`, `C73_quick_widths`, `C73_on_slide`.
* Outside the stated domain, refuted with witnesses: `C73_no_columns_refuted`.
* Note: Widths given in inches are taken after conversion.

### C74 Document properties set on a part are the ones written and read back

* Model: PartsModel: coreprops.rs, app_props.rs.
* Proof: The texts as templates; the library reader on the tree; induction over the calls.
* Status: proved. Theorems: `C74_core`, `C74_core_fields`, `C74_app`.
* Outside the stated domain, refuted with witnesses: `C74_dates_refuted`, `C74_revision_refuted`, `C74_app_escaped_refuted`, `C74_app_after_reading_refuted`.
* Note: The clock is an input.

### C75 A presentation part lists its slides under distinct numbers and resolvable ids, and content types declare exactly the given parts

* Model: PartsModel: presentation.rs, content_types.rs; RelsModel.
* Proof: Templates; library reader and independent reader; induction over the added slides.
* Status: proved. Theorems: `C75_back`, `C75_listed`, `C75_numbers`, `C75_resolve`, `C75_types`, `C75_declared`.
* Outside the stated domain, refuted with witnesses: `C75_theme_id_refuted`, `C75_number_again_refuted`, `C75_theme_back_refuted`, `C75_types_back_refuted`, `C75_types_escaped_refuted`.
* Note: Texts that need no escaping.

### C76 Layouts, masters, themes, notes and slides as parts hold what was set on them

* Model: PartsModel: slide_layout.rs, slide_master.rs, theme.rs, notes_slide.rs, parts/slide.rs.
* Proof: Templates and paths; induction over the calls; the slide reader theorem of C53.
* Status: proved. Theorems: `C76_layout`, `C76_master`, `C76_master_numbers`, `C76_theme`, `C76_notes`, `C76_slide`, `C76_slide_kept`, `C76_slide_set`, `C76_slide_empty`, `C76_slide_layout`.
* Outside the stated domain, refuted with witnesses: `C76_master_again_refuted`, `C76_theme_escaped_refuted`, `C76_theme_after_reading_refuted`, `C76_layout_after_reading_refuted`, `C76_master_after_reading_refuted`, `C76_notes_back_refuted`, `C76_slide_title_refuted`.
* Note: The slide read back uses the reader of C53.

### C77 The command-line tool reports faithfully and writes where it should

* Model: CliModel: commands.rs (validate), pptcli.rs, report.rs.
* Proof: A JSON reader in CliSpec; words of the printed text piece by piece; induction over the findings; paths by induction over their pieces.
* Status: proved. Theorems: `C77_json`, `C77_status`, `C77_lines`, `C77_output`, `C77_stem`, `C77_format`, `C77_merge`, `C77_merge_fails`.
* Outside the stated domain, refuted with witnesses: `C77_overwrites_refuted`.
* Note: Arguments after clap; the disk accepts the file.

### C78 Measures become EMU as the real numbers they stand for say

* Model: FloatModel: IEEE 754 by Flocq, casts of `as`; DimModel: dimension.rs, position.rs, unit conversions and image scaling.
* Proof: Correctness theorems of Flocq for each operation, half an ulp as error, relative error for quotients, monotone rounding.
* Status: proved. Theorems: `C78_close`, `C78_exact`, `C78_grows`, `C78_range`, `C78_ends`, `C78_ratio_within`, `C78_ratio_close`, `C78_ratio_ends`, `C78_ratio_grows`, `C78_percent`, `C78_percent_ends`, `C78_placed`, `C78_placed_default`, `C78_coordinate`, `C78_coordinate_grows`, `C78_back`, `C78_scaled_width`, `C78_scaled_height`.
* Outside the stated domain, refuted with witnesses: `C78_back_refuted`, `C78_decimal_refuted`, `C78_scaled_refuted`.
* Note: IEEE 754 as formalized by Flocq; uses the axioms of the real numbers and classical logic of the standard library.

### C79 Colours are made lighter, darker, transparent, mixed and gray as real numbers say

* Model: ShadeModel: colors.rs in f32.
* Proof: Correctness of each operation by Flocq, half an ulp as error at each step, integers exact, monotone rounding; percentages by computing all of them.
* Status: proved. Theorems: `C79_lighter`, `C79_lighter_grows`, `C79_lighter_ends`, `C79_darker`, `C79_darker_grows`, `C79_darker_ends`, `C79_opacity`, `C79_transparent`, `C79_mix`, `C79_mix_ends`, `C79_gray`, `C79_gray_again`.
* Outside the stated domain, refuted with witnesses: `C79_mix_refuted`, `C79_gray_refuted`, `C79_nan_refuted`.
* Note: IEEE 754 as formalized by Flocq; uses the axioms of the real numbers and classical logic of the standard library.

### C80 The text of a shape gets a size that fits and a colour that can be read

* Model: FitModel: shapes_xml.rs, font size and contrast in f64.
* Proof: Induction over the lines with bounds on the rounded sum; relative error of the quotients; absolute error of the luminance.
* Status: proved. Theorems: `C80_range`, `C80_fits`, `C80_large`, `C80_grows`, `C80_contrast`.
* Outside the stated domain, refuted with witnesses: `C80_fits_refuted`, `C80_middle_refuted`, `C80_panic_refuted`.
* Note: IEEE 754 as formalized by Flocq; uses the axioms of the real numbers and classical logic of the standard library. White space of Unicode is any function.

### C81 Gradient fills show their stops, in order, and their direction

* Model: GradModel: gradients.rs.
* Proof: Templates read back by the XML reader, list by induction; insertion sort as a stable permutation.
* Status: proved. Theorems: `C81_shown`, `C81_sorted`, `C81_presets`.
* Outside the stated domain, refuted with witnesses: `C81_angle_refuted`, `C81_color_refuted`.
* Note: Colours are hexadecimal, angles fit in 32 bits.

### C82 Videos, sounds and pictures get the right kind, type and place

* Model: MediaModel: media.rs, parts/media.rs, parts/image.rs.
* Proof: Case analysis over kinds; templates read back; injectivity of decimals.
* Status: proved. Theorems: `C82_video_kind`, `C82_audio_kind`, `C82_video_only`, `C82_audio_only`, `C82_video_type`, `C82_audio_type`, `C82_video_shown`, `C82_audio_shown`, `C82_part`, `C82_part_only`, `C82_part_distinct`, `C82_image_distinct`, `C82_image`, `C82_image_type`.
* Outside the stated domain, refuted with witnesses: `C82_options_refuted`, `C82_sound_options_refuted`, `C82_tif_refuted`, `C82_part_type_refuted`.
* Note: Lower case is modelled for ASCII.

### C83 Table parts show every cell, span, look, column and frame

* Model: TpartModel: parts/table.rs.
* Proof: Templates read back by the XML reader, rows and cells by induction.
* Status: proved. Theorems: `C83_shown`, `C83_looks`, `C83_aligned`, `C83_columns`.
* Outside the stated domain, refuted with witnesses: `C83_size_refuted`, `C83_ragged_refuted`, `C83_center_refuted`, `C83_below_refuted`, `C83_line_refuted`, `C83_font_refuted`, `C83_points_refuted`.
* Note: Border widths are any integers: the float computation of CellBorder::new is not modelled.

### C84 Frames of text show every paragraph and run with its looks

* Model: TxtModel: generator/text.
* Proof: Templates read back by the XML reader, paragraphs and runs by induction.
* Status: proved. Theorems: `C84_shown`, `C84_added`, `C84_level`, `C84_space`, `C84_color`, `C84_format`, `C84_baseline`, `C84_right`, `C84_preset`.
* Outside the stated domain, refuted with witnesses: `C84_style_refuted`, `C84_line_refuted`, `C84_points_refuted`, `C84_escape_refuted`.
* Note: Upper case is modelled for ASCII.

### C85 Stand-alone slide layouts show the title, bullets and objects they keep

* Model: LaysModel: generator/layouts.
* Proof: Templates read back by the XML reader, bullets, shapes, images and table rows by induction.
* Status: proved. Theorems: `C85_title`, `C85_blank`, `C85_bullets`, `C85_columns`, `C85_objects`, `C85_table`, `C85_ids`.
* Outside the stated domain, refuted with witnesses: `C85_dropped_refuted`, `C85_size_refuted`.
* Note: Sizes are written without the factor 100 outside the two-column layout (C85_size_refuted); most layouts drop everything but texts (C85_dropped_refuted).

## What is modelled and what is not

Modelled, function by function (file in `/repo/src` — model):

| Code | Model |
| --- | --- |
| `opc/package.rs` | PackageModel |
| `opc/compress.rs` (all but ZIP level and temporary files) | CompressModel |
| `core/xml_utils.rs`, escape helpers across the crate | EscapeModel, XmlWriterModel |
| `core/package_validation/*`, `core/validation.rs` (XML check) | ValidModel, ResolveModel |
| `oxml/editor.rs` | EditorModel |
| `oxml/repair.rs` | RepairModel |
| `oxml/xmlchemy.rs`, `oxml/presentation.rs`, `oxml/slide.rs` | XmlTreeModel, ReaderModel |
| `parts/relationships.rs` | RelsModel |
| `generator/package_xml.rs`, `notes_xml.rs`, `props_xml.rs` | GenModel, DocPropsModel |
| `generator/{layout_parts,theme_xml,presentation_theme,package_cache}.rs`, `generator/slide_content/{slide_show_settings,print_settings,digital_signature,ink_annotations,presentation_settings}.rs` | SettingsModel |
| `generator/builder.rs`, `media_registry.rs`, `api.rs` (builder part) | DeckModel |
| `generator/slide_xml/*`, `slide/*`, `slide_content/{bullet,content,transition,layout,code_block}.rs`, `generator/text/format.rs` | SlideModel, InlineModel |
| `generator/shapes.rs`, `shapes_xml.rs`, `hyperlinks.rs`, `images_xml.rs`, `image_effects.rs` | ShapeModel |
| `generator/images.rs` (probing, base64, extension) | ProbeModel, Base64Model, ShapeModel |
| `generator/connectors.rs` | ConnectorModel |
| `generator/table/*` | TableModel |
| `generator/charts/*` | ChartModel |
| `generator/slide_content/{table_merge,sections,comments,embedded_fonts}.rs` | MergeModel, SectionModel, CommentsModel, FontsModel |
| `elements/color.rs`, colour cleaning helpers | ColorModel |
| `cli/markdown/parser.rs` (on pulldown-cmark events; Mermaid diagrams as a function) | MdParseModel |
| `cli/markdown/mermaid/{types,flowchart}.rs` | FlowModel |
| `cli/markdown/mermaid/{mod,sequence,timeline,gantt,journey,gitgraph,pie,class_diagram,state_diagram,er_diagram,mindmap,quadrant}.rs`, placement of diagrams in `cli/markdown/parser.rs` | DiagramModel |
| `import/html.rs` | HtmlInModel |
| `import/mod.rs` | ImportModel |
| `web2ppt/{config,parser,converter}.rs` (on the page tree; selectors as a function) | WebModel |
| `templates.rs` | TemplateModel |
| `generator/layouts/*.rs` | LaysModel |
| `parts/table.rs` | TpartModel |
| `generator/text/{mod,format,run,paragraph,frame,rtl}.rs` | TxtModel |
| `generator/gradients.rs` | GradModel |
| `generator/media.rs`, `parts/media.rs`, `parts/image.rs` | MediaModel |
| `helpers/colors.rs` (lighter, darker, opacity, transparent, mix, grayscale) | ShadeModel |
| `generator/shapes_xml.rs` (font size, contrast) | FitModel |
| `core/dimension.rs`, `elements/position.rs` (from_inches, from_cm, with_rotation), unit conversions of `generator/shapes.rs` and `prelude.rs`, scaling in `generator/images.rs` | FloatModel, DimModel |
| `cli/commands.rs` (validate), `bin/pptcli.rs` (output paths, formats, merge), `core/package_validation/report.rs` | CliModel |
| `parts/{coreprops,app_props,presentation,content_types,slide_layout,slide_master,theme,notes_slide,slide}.rs` | PartsModel |
| `prelude.rs` (`layouts`) | ArrangeModel |
| `prelude.rs` (`QuickPptx`), `helpers/tables.rs` | QuickModel |
| `mcp/mod.rs` (create, tables, charts, merge, info; after JSON decoding) | McpModel |
| `export/md.rs`, `export/html.rs` | ExportModel |

Not modelled: the ZIP byte format and file system; the tokenizers of `xml-rs`/`quick-xml` and `pulldown-cmark`; floating-point layout
elsewhere (crop fractions, mind maps, quadrant charts enter as their results; the font size and contrast of C80 are arbitrary in the other models); PDF and image export through external programs
(`export/pdf_export.rs`, `image_export.rs`, `slide_render.rs`); fetching pages (`web2ppt/fetcher.rs`); of the
command line the argument parser and the commands that only forward (`cli/parser.rs`, `cli/syntax.rs`, create, info, pdf2ppt, web2ppt); the MCP transport and the export, validation and Markdown tools, which only forward (`mcp/mod.rs`); template decks; the other convenience wrappers in `prelude.rs`, `helpers`; the stand-alone `parts/chart.rs`.

## Findings

Every `_refuted` theorem is one. In words, with others seen on the way:

* Escaping: control characters survive `escape_xml`; tabs in attributes and carriage returns in text are not preserved; the theme
  writer uses another escaper; colours, fonts, custom bullets, panose numbers, hyperlink ids, the core title, HTML-export titles,
  image extensions and repaired part names are written unescaped.
* Package: parts whose names look like directories are lost on save and reopen; `add_with_id` stores duplicate ids silently;
  `content_types.rs` `from_xml` ignores its input.
* Editor: `add_slide` can reuse a relationship id that is taken; the rebuilt content types leave media, notes, charts and other layouts
  out; duplicating a slide without relationships
  creates an empty relationship part; reordering destroys a part named `_temp_slide.xml`; after a removal the reference to the notes master can
  resolve to another part.
* Generator: caller-chosen font and shape ids collide; font part names collide when typefaces differ in spaces; images that cannot be
  loaded, and formats other than jpg/png/gif, give shifted ids or parts without content type; the font list is placed after
  `p:extLst`; a labelled connector has `p:txBody` inside `p:cxnSp`; connection sites left and right are swapped; the points of a bar series
  all have index 0, plain, horizontal and stacked bar charts give the same part, extra pie series are dropped, the grouping "lineMarkers" does not exist,
  the embedded workbook is always the same; videos and audios are never written; code block text sits outside any paragraph; fourteen
  kinds of shape and some transitions have names that do not exist in the schema; rotations and angles over 32 bits wrap; table sizes over 42949672 points wrap;
  string tables whose rows are all empty panic; four of the seven layouts drop the bullets, all but one the table; a shape that jumps to
  the first slide has a relationship that leads nowhere; lazy decks leave signature, fonts and ink untyped and list slides their source
  does not give; with a template and a theme the theme part
  is written twice; the signature part is not related to its origin.
* Settings: narration always reads as off and saved timings as on; a custom slide list names no custom show; colour mode, handout layout, frames,
  scaling, hidden slides and orientation of printing are never written, nor the header text on the slide master; a theme called "Office Theme" with the Office colours
  loses its fonts; the signer's address, organisation and title are never written; ink without strokes is an empty part.
* Comments: mixing the two ways of adding gives two comments one index. Relationships: extended properties are read back as the
  office document, targets are written unescaped.
* Sections, merges, relationship ids: sums that overflow `usize`/`u32` break the invariants.
* Colours: a plus sign is accepted as a hex digit; non-ASCII text can panic.
* Images: format detection panics on four or five bytes that start neither like a PNG nor like a JPEG, JPEGs with SOF1 have no dimensions, pixel sizes overflow `u32`.
* Inline formatting: underscores and asterisks that are no markup are taken for markers.
* Compression: media used through a relationship is removed, notes and properties removal leave dangling relationships,
  text and attribute values can change, minimising twice differs, images with upper-case extensions are not counted, `remove_comments` and the level have no effect, concurrent calls share
  temporary file names.
* Document properties: dates drift (365-day years, 30-day months, month 13, February 30).
* Reader: slide order follows relationship numbers, not the slide list; code is not read back; the text of a slide is listed twice
  and that of its table not at all.
* XML tree: text order of mixed content and blank runs are lost.
* Validation: relationships with attributes in another order are mispaired, unreadable parts are passed over, well-formedness is not
  checked, content types are compared by substring, code text is taken for references, the master-id check never fires.
* Repair: claims every issue repaired; damages one-line relationship parts; ids below 256; leaves slide-list entries of removed parts;
  overflow; blank parts become bare declarations; targets with ".." never reported; package relationships made anew lead to document properties even when there are none.
* Markdown import: nested lists, several paragraphs in an item or quotation, bold across line breaks, images in headings, second tables,
  links and check boxes are lost or garbled; an inline HTML comment can panic; sub-headings before the first slide are dropped.
* Mermaid state, class and entity diagrams: a state called Start is merged with the start, descriptions and nested states are lost; inheritance points at
  the heir and every class arrow looks the same, relations with labels and classes without bodies are dropped, a body on one line swallows what follows;
  entity names are cut at small o and dashes, `|o--o|` is lost, and places depend on the order of a hash table. (C65)
* Mermaid headings: "Eruption" is taken for an entity diagram, a remark before the heading hides it, and drawings are never moved up or left, so
  that tall ones that would fit run off the slide. (C66)
* Mind maps and quadrant charts: the leaves of one branch cover each other, leaves indented by fewer than nine blanks become branches, names in front of
  brackets are shown, second roots are lost; titles, axes and quadrant names are never drawn. (C67)
* Web pages: text outside of paragraphs, pictures in paragraphs and short paragraphs are lost, lists in lists are run together, menus are taken for
  contents (a remark in the code says they are skipped), cells of inner tables come twice. (C68)
* Slides of web pages: the description and the source are put on a slide whose layout never shows them; headings alone get no slide; without grouping,
  list items beyond the limit, early quotes, code, tables and pictures are lost; a limit of zero lines is not kept. (C69)
* Built-in kinds: author, date and version are put on slides whose layout never shows them. (C70)
* Arrangements: what does not fit on the slide is placed far beside it, since the subtraction wraps around. (C71)
* Quick decks without slides get a slide titled "Presentation" instead of the given title. (C72)
* Quick tables with no columns, or made of no data, panic (division by zero, first row of nothing). (C73)
* Parts that were read (application properties, layouts, masters, themes) keep their text: what is set afterwards is never written. (C74, C76)
* Application properties, content types, themes and layouts are written without escaping: "A & B" as company makes a part no reader accepts. (C74, C75, C76)
* A slide added to a new presentation part as rId2 has the id of the theme; a slide added to a part that was read can repeat a number. (C75)
* Reading content types or notes reads nothing. (C75, C76)
* A master given the same layout id twice numbers both the same. (C76)
* The title of a slide part is the one read from its text, even after another slide was set; before reading there is none. (C76)
* Command line: an input that ends in .pptx is overwritten by its own conversion, inputs that differ only in their endings share an output; `html2ppt` is documented to
  take the title from the page, but never does; "--title" of `md2ppt` is said to override the Markdown contents, and does not. (C77)
* Measures: the product is cut off, not rounded, so that 0.57 inch, 0.35 cm and 2.3 pt are an EMU short and EMU do not survive the way through inches; an image
  scaled to its own width can lose height; one of width 0 is stretched to the largest height there is. (C78)
* Colours: mixing a colour with itself can change it and make it less than opaque; a gray turned gray can get darker; `lighter(NaN)` is black. (C79)
* Text of shapes: below 6 points the text does not fit any more; a shape without room gets 8.69 points; the fill 808080, exactly in the middle, is taken for dark, other
  middles are not; a fill colour with a character across its first six bytes panics when the slide is written. (C80)
* Tables on slides: centred text and text in the middle, the default of every cell, are written without alignment, which readers show to the left, at the top. (C49)
* Gradients: angles over 71582 degrees wrap; colours are unescaped. (C81)
* Media: start, loop, mute, volume and poster are accepted and never written; media parts are typed `application/octet-stream`, and TIFF gets the wrong type. (C82)
* Table parts: cells covered from above are marked as covered from the left; double borders get the dash `dbl`, which does not exist; centred text is not aligned; rows may be ragged and the columns not as wide as the frame; typefaces are unescaped. (C83)
* Text frames: runs drop strikethrough, highlight, subscript and superscript; paragraphs drop line spacing. (C84)
* Stand-alone layouts: font sizes are written as points where hundredths are meant, except in two columns, so the title of a new slide is 0.44 points high; images are grey boxes with a file name; tables, shapes and images are dropped outside title-and-content, and charts, code, connectors, notes, transitions and bullet formats everywhere. (C85)
* Other Mermaid diagrams: dashed messages look like solid ones, messages to oneself have no width, the seventh message runs past the life
  lines; dates and durations of Gantt charts make no difference; a new git branch is not switched to and commits on unknown branches are
  drawn on the first track; the disc of a pie is never divided.
* Mermaid flowcharts: chains of arrows lose nodes and lines, captions after the first mention are ignored, a node in two groups is drawn
  twice, the outer of nested groups is lost, RL and BT are ignored, places depend on hash order, arrows in captions are taken for lines, open lines get an arrow head.
* HTML import: a void tag inside a skipped element and a `<` in a script lose the rest of the page; spaces between inline tags vanish;
  bold in cells and quotations leaks markers; nested lists lose items; only a few entities are decoded; a colour of eight bytes with a
  split character panics; the library's own HTML export cannot be imported.
* Import of presentations: pictures, notes, charts, connectors, fills and most kinds of shape are lost; a deck title with an ampersand is
  lost; the body of a slide that also has a table disappears on the next save.
* Server tools: the table tool counts tables it skipped; the layout argument is ignored; summaries never list pictures or charts.
* Markdown and HTML export: titles, bars, line breaks, fences, references and images break the format; tables are dropped from HTML.
