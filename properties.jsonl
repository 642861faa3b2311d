{"id": "C01", "title": "Package is a last-write-wins part store", "statement": "After any sequence of add/remove calls on a Package, get_part(name) returns exactly the bytes of the last add of that name if no later remove of it happened, and nothing otherwise; has_part agrees with get_part and part_count is the number of names for which get_part succeeds. Removing returns the stored bytes.", "quantifier": "every sequence of add_part/remove_part calls and every part name", "why_tests_cant": "the number of histories and names is unbounded; a unit test fixes one history", "anchors": ["src/opc/package.rs: Package::new, add_part, remove_part, get_part, has_part, part_count"]}
{"id": "C02", "title": "Saving and reopening a package loses nothing", "statement": "Writing a package to a ZIP and opening the ZIP gives back a package with the same parts and bytes, whatever order the parts are written in, as long as no part name is one the ZIP layer takes for a directory (exactly those parts are lost); directory entries are ignored and, of several entries with one name, the last wins.", "quantifier": "every package, every order of iteration of its hash map, every list of ZIP entries", "why_tests_cant": "hash-map iteration order is nondeterministic; a test sees one order", "anchors": ["src/opc/package.rs: Package::open_reader, save_writer"]}
{"id": "C03", "title": "Relationship targets resolve to normal paths inside the package", "statement": "Resolving a relative relationship target against a normal source directory gives the path reached by the usual left-to-right walk, in which '..' at the root stays at the root; the result has no empty, '.' or '..' segment; absolute targets ignore the source directory; the source directory of d/_rels/f.rels is d. False for absolute targets with dot segments (kept as they are) and for relationship parts of parts in the package root.", "quantifier": "every source directory string and every target string", "why_tests_cant": "strings are unbounded and adversarial", "anchors": ["src/core/package_validation/rels.rs: rels_source_dir, resolve_rel_target"]}
{"id": "C04", "title": "XML escaping is safe and lossless", "statement": "The escaped form of any text contains none of < > \" ' and every & in it starts one of the five predefined entity references; replacing these references by their characters gives back exactly the original text. Text without special characters is unchanged, and two texts with the same escaped form are equal.", "quantifier": "every string", "why_tests_cant": "needs all strings, including ones that already contain entity-like text", "anchors": ["src/core/xml_utils.rs: escape_xml, append_escape_xml"]}
{"id": "C05", "title": "All escape helpers in the crate agree", "statement": "The chained-replace escapers used by sections, comments, fonts, print settings, signatures and core properties, the append variant and the fast path all return the same result as the main escaper for every string.", "quantifier": "every string", "why_tests_cant": "equality of two functions on an infinite domain", "anchors": ["src/core/xml_utils.rs", "src/generator/slide_content/sections.rs: xml_escape", "src/generator/slide_content/comments.rs: xml_escape", "src/generator/slide_content/embedded_fonts.rs: xml_escape", "src/generator/slide_content/print_settings.rs: xml_escape", "src/parts/coreprops.rs: escape_xml", "src/generator/props_xml.rs: xml_escape"]}
{"id": "C06", "title": "XmlWriter output cannot be broken out of", "statement": "A document written through XmlWriter with any properly nested calls parses back, under an independent reading of XML tags, attributes and text, to exactly the tree of names, attribute values and text that was passed in, whatever markup characters the values contain (for characters XML 1.0 can carry unchanged: no control characters, no carriage return, no tab or line feed in attribute values; with those the round trip fails).", "quantifier": "every tree of elements, attribute values and texts", "why_tests_cant": "injection bugs depend on adversarial values at arbitrary depth", "anchors": ["src/core/xml_utils.rs: XmlWriter::start_element, end_element, empty_element, text"]}
{"id": "C07", "title": "Editor slide operations behave as list operations", "statement": "Seen as the ordered list of its slides (XML and relationship bytes), an editor session behaves exactly as a list: add appends, insert at i inserts before position i, remove at i deletes position i, duplicate at i copies position i right after it (a missing relationship part becomes an empty one), reorder(from,to) removes the element at from and reinserts it at to, update replaces the XML of position i, and slide_count is the list length. A package whose slide parts are exactly 1..n opens as such a list of n slides.", "quantifier": "every editor state whose slides are numbered 1..n, every n, every index and every sequence of operations", "why_tests_cant": "correct renumbering needs all slide counts and all index pairs and interleavings", "anchors": ["src/oxml/editor.rs: add_slide, update_slide, remove_slide, duplicate_slide, insert_slide, reorder_slide, renumber_slide"]}
{"id": "C08", "title": "Rejected editor operations change nothing", "statement": "Whenever an editor operation returns an error, the package and the slide count are unchanged; and on a deck whose slides are numbered 1..n an operation fails exactly when its index is out of range.", "quantifier": "every editor state, operation and index", "why_tests_cant": "must hold for every state and index", "anchors": ["src/oxml/editor.rs: update_slide, remove_slide, duplicate_slide, insert_slide, reorder_slide"]}
{"id": "C09", "title": "Editor operations touch only slide parts and the package indexes", "statement": "No editor operation changes, adds or removes a part other than the numbered slide parts, their relationship parts, presentation.xml, its relationships, [Content_Types].xml and the two scratch names ppt/slides/_temp_slide.xml and ppt/slides/_rels/_temp_slide.xml.rels (media, notes, charts, layouts, masters, themes and properties keep their bytes).", "quantifier": "every editor state, operation sequence and part name", "why_tests_cant": "frame property over all part names and histories", "anchors": ["src/oxml/editor.rs"]}
{"id": "C10", "title": "Structural edits leave consistent indexes", "statement": "After a successful insert, remove, duplicate or effective reorder, from any state, presentation.xml lists exactly one slide entry per slide in order, with distinct ids, each entry's relationship id is present exactly once in the presentation relationships and points at the slide part of that position, and [Content_Types].xml has a slide entry for exactly these slide parts. (add_slide does not have this property, and the notes-master reference is not covered: both are refuted by theorems.)", "quantifier": "every editor state and slide count", "why_tests_cant": "needs every slide count; ids and numbers must line up for all of them", "anchors": ["src/oxml/editor.rs: rebuild_presentation_xml, rebuild_presentation_rels, rebuild_content_types", "src/generator/package_xml.rs: slide_rel_id, slide_id_value, create_presentation_rels_xml_full"]}
{"id": "C11", "title": "Relationship ids of a generated presentation are unique", "statement": "In the presentation relationships of a generated deck all ids are pairwise distinct, for every number of slides and embedded fonts, with or without notes and handouts, when the caller has not chosen relationship ids for the fonts (a caller-chosen font id can collide).", "quantifier": "every slide count, font count, notes flag, handout flag", "why_tests_cant": "id arithmetic must not collide for any size", "anchors": ["src/generator/package_xml.rs: create_presentation_rels_xml_full, create_presentation_rels_xml_full_with_fonts, slide_rel_id, notes_master_rel_id, handout_master_rel_id, pres_props_rel_id", "src/generator/builder.rs: prepare_settings"]}
{"id": "C12", "title": "Every reference in presentation.xml resolves to the right part", "statement": "Each slide entry, the slide master, notes master and handout master references in a generated presentation.xml name a relationship in the presentation relationships whose type and target are that of the i-th slide, the slide master, the notes master or the handout master; slide entries are in slide order with pairwise distinct ids of at least 256.", "quantifier": "every slide count and flag combination", "why_tests_cant": "two independently computed numberings must agree for all sizes", "anchors": ["src/generator/package_xml.rs: create_presentation_xml, create_presentation_rels_xml_full"]}
{"id": "C13", "title": "Chart and notes numbering of a generated deck is consistent", "statement": "Over a whole deck the chart parts are numbered 1..total without gaps or repetition, holding the charts of all slides in order; each slide whose images can be loaded shows its own charts in order, by relationships to exactly those parts, and has no other chart relationship; notes parts are numbered 1..k, a slide with notes is linked to one notes part which holds its text and links back to that slide, and a slide without notes has none.", "quantifier": "every deck (list of slides with any number of charts and optional notes)", "why_tests_cant": "numbering threads a counter through the deck", "anchors": ["src/generator/builder.rs: collect_chart_info, write_charts, write_slide_relationships_extended, write_notes_relationships", "src/generator/notes_xml.rs: create_notes_rels_xml"]}
{"id": "C14", "title": "Identical images are stored once and each image keeps its own bytes", "statement": "In a generated deck, two images share a media part exactly when their bytes and extension are equal, media parts are numbered 1..k without gaps in order of first use, and the part an image is linked to contains exactly the image's bytes.", "quantifier": "every sequence of images", "why_tests_cant": "deduplication correctness depends on the whole sequence", "anchors": ["src/generator/media_registry.rs: MediaRegistry::image_number, MediaRegistry::lookup_number", "src/generator/builder.rs: build_media_registry, write_images, slide_image_rel_targets"]}
{"id": "C15", "title": "Slide XML and slide relationships use the same ids", "statement": "Every relationship id used in a generated slide (hyperlinks, images, charts, ink) exists in that slide's relationship part with the right kind (a hyperlink leads to the web address, mail address, file, slide or place in the show it was given), and ids in the part are distinct, provided every image could be loaded and the ids the caller gave to hyperlinks differ from each other and from the ones the library gives. Otherwise it fails: an image that cannot be loaded shifts the ids used in the slide but not those of the relationships, and a caller's hyperlink id can repeat another.", "quantifier": "every slide content (numbers of images, charts, hyperlinks, notes, ink)", "why_tests_cant": "two files computed by different code must agree for all counts", "anchors": ["src/generator/builder.rs: write_slides, write_slide_relationships_extended", "src/generator/package_xml.rs: create_slide_rels_xml_extended, create_slide_rels_xml_with_images", "src/generator/slide_xml/content.rs: render_additional_content"]}
{"id": "C16", "title": "Shape ids on a generated slide are unique", "statement": "In a generated slide part read back as XML, the drawing ids (p:cNvPr/@id) of the group, title, body, shapes, images, code blocks, connectors and charts are pairwise distinct, for any number of each (fewer than 2^32-10 shapes), when the caller assigns no shape id. With an id chosen by the caller the claim is false.", "quantifier": "every combination of element counts", "why_tests_cant": "offsets 10/20/30/50/100 must not collide for any counts", "anchors": ["src/generator/slide_xml/content.rs: render_additional_content"]}
{"id": "C17", "title": "Every media extension in a generated deck has a content type", "statement": "Each media part written into a generated deck has an extension for which [Content_Types].xml gives the right content type, when images are jpg, png or gif. Every other format (jpeg, bmp, tiff, svg, webp, ...) is stored in a part without content type.", "quantifier": "every image format and deck", "why_tests_cant": "holds or fails per format; must be checked for all", "anchors": ["src/generator/package_xml.rs: append_image_content_type_defaults", "src/generator/builder.rs: write_images"]}
{"id": "C18", "title": "Generated decks are read back with all slides in order", "statement": "Reading any presentation lists its slides in the order of the numbers in their relationship ids; for a generated one that is as many slides as were written, in the order they were written, for any number of slides (below 2^32 - 1).", "quantifier": "every slide count", "why_tests_cant": "lexicographic/numeric ordering bugs only show at 10 or more slides, or 100...", "anchors": ["src/oxml/presentation.rs: parse_presentation_xml", "src/generator/package_xml.rs"]}
{"id": "C19", "title": "Table merge regions never overlap or leave the table", "statement": "After any sequence of merge requests whose end row and end column fit in usize, accepted regions are pairwise disjoint and inside the table; a request is accepted exactly when it is non-empty, inside the table and shares no cell with an accepted region; a refused request changes nothing. (Beyond that domain a release build accepts a region outside the table.)", "quantifier": "every table size, every sequence of merge requests", "why_tests_cant": "overlap test correctness over all rectangles and histories", "anchors": ["src/generator/slide_content/table_merge.rs: MergeRegion::new, overlaps, TableMergeMap::add_merge, merge_cells"]}
{"id": "C20", "title": "Merge state of every cell is right", "statement": "Each cell is reported as the anchor (with the region's spans) if it is the top-left cell of an accepted region, as a merged cell if covered by one without being its top-left, and as normal otherwise.", "quantifier": "every accepted history and every cell", "why_tests_cant": "all cells, all histories", "anchors": ["src/generator/slide_content/table_merge.rs: TableMergeMap::cell_state, CellMergeState"]}
{"id": "C21", "title": "Sections partition slides", "statement": "After any sequence of add/remove/rename/clear on the section manager (added sections' ends fitting in usize), sections are sorted by first slide and no slide is in two sections; looking a slide up finds the section containing it if and only if there is one; an add is refused exactly when it overlaps, and then changes nothing. (Beyond that domain two sections can share a slide.) Removing by name removes exactly the first section of that name, looking up by name finds that one, and renaming changes only its name.", "quantifier": "every sequence of operations", "why_tests_cant": "history-dependent invariant", "anchors": ["src/generator/slide_content/sections.rs: SectionManager::add_section, remove_section, rename_section, section_for_slide"]}
{"id": "C22", "title": "Comment authors and comment indexes are stable", "statement": "get_or_add returns the same id for the same name for ever after, different ids for different names, ids are 0..n-1 in order of first use and looking up an id returns the author it was given to (fewer than 2^32 calls); comments added to a slide with add_comment are numbered 1,2,3... and keep author, text and position. (Mixing add and add_comment can repeat an index.)", "quantifier": "every sequence of author and comment additions", "why_tests_cant": "history-dependent", "anchors": ["src/generator/slide_content/comments.rs: CommentAuthorList::get_or_add, get_by_id, SlideComments::add_comment"]}
{"id": "C23", "title": "Embedded fonts are each listed once", "statement": "The embedded font list of a presentation names each typeface once, in order of first use, and under it references exactly the fonts with that typeface, each font exactly once; assigned relationship ids are distinct. Holds for any typeface text without control characters; the panose string is written unescaped and must be free of markup.", "quantifier": "every list of fonts", "why_tests_cant": "grouping algorithm over arbitrary lists", "anchors": ["src/generator/slide_content/embedded_fonts.rs: EmbeddedFontList::to_xml, assign_relationship_ids, part_name"]}
{"id": "C24", "title": "Relationship collections hand out fresh ids", "statement": "Relationships::add never returns an id already present, whatever mix of add and add_with_id calls came before, as long as explicit rId numbers plus the number of calls stay below 2^32; the relationship added is what get(id) returns for ever after; add_with_id stores under its id unless the id is taken, in which case get keeps returning the old one.", "quantifier": "every sequence of add/add_with_id calls and arbitrary explicit id strings", "why_tests_cant": "histories with arbitrary explicit ids", "anchors": ["src/parts/relationships.rs: Relationships::add, add_with_id, get"]}
{"id": "C25", "title": "Hex colours round-trip", "statement": "Parsing the hex form (with or without alpha) of any colour gives the colour back; a string is accepted exactly when it is any number of # followed by three pairs, each two hex digits or a plus sign and a hex digit, and gives their values; no ASCII string makes parsing panic; inverting twice is the identity. (Signs being accepted as digits, and the panic on some non-ASCII strings, are recorded as refutations.) The colour value written into the file for a colour is its six upper-case hex digits, which read back as the colour's three components.", "quantifier": "every colour and every string", "why_tests_cant": "2^24 colours and all strings", "anchors": ["src/elements/color.rs: RgbColor::from_hex, to_hex", "src/helpers/colors.rs: ColorValue::from_hex, to_hex, invert"]}
{"id": "C26", "title": "Base64 encoding and decoding are inverse", "statement": "Decoding the base64 form of any byte sequence gives the bytes back, even with line breaks and spaces inserted; the encoder's output has length 4*ceil(n/3) and uses only the base64 alphabet and padding.", "quantifier": "every byte sequence, every placement of whitespace", "why_tests_cant": "all lengths mod 3 and all bytes", "anchors": ["src/export/html.rs: base64_encode", "src/generator/images.rs: base64_decode"]}
{"id": "C27", "title": "Image probing is total and exact", "statement": "Reading image dimensions terminates and never panics on any bytes; on a well-formed PNG, GIF, BMP or WebP header, and on a JPEG with any number of segments before a baseline or progressive frame header, it returns the encoded width and height. Format detection from bytes panics on exactly the 4- and 5-byte inputs that start neither like a PNG nor like a JPEG (a defect). Elsewhere it tells PNG, JPEG and GIF images apart; it never answers BMP or WebP.", "quantifier": "every byte string", "why_tests_cant": "truncated and adversarial inputs", "anchors": ["src/generator/images.rs: read_image_dimensions, read_jpeg_dimensions, ImageBuilder::auto"]}
{"id": "C28", "title": "Inline formatting keeps the text", "statement": "Splitting a bullet text into formatted runs drops only marker characters: a text is spelled by tokens (back-ticks, doubled and single * or _, ordinary characters) and every ordinary character is shown, in order, bold after an odd number of doubled markers, italic after an odd number of single ones, as code after an odd number of back-ticks; a text without markers is one plain run; text inside a code span is kept verbatim; the runs written as XML read back as these segments.", "quantifier": "every string", "why_tests_cant": "marker combinations are unbounded", "anchors": ["src/generator/slide/formatting.rs: parse_inline_formatting"]}
{"id": "C29", "title": "XML minimisation only removes whitespace", "statement": "The compressor's XML minimiser keeps every non-white-space character in order and never lengthens its input, for every string; in a document whose texts contain no double quotes it keeps every tag byte for byte. (It does not keep white space that belongs to text, and after an odd double quote in a text not that of attribute values either: refuted.)", "quantifier": "every string", "why_tests_cant": "state machine over arbitrary input", "anchors": ["src/opc/compress.rs: minimize_xml"]}
{"id": "C30", "title": "Size analysis accounts for every part", "statement": "The analysis of a package assigns every part to exactly one category, so that the category sizes add up to the total and the counts agree.", "quantifier": "every package", "why_tests_cant": "sum over arbitrary packages", "anchors": ["src/opc/compress.rs: analyze_pptx"]}
{"id": "C31", "title": "Removing unused media never breaks a used image", "statement": "Compression with media removal removes nothing but parts below ppt/media, and of these only ones whose file name occurs in no slide's XML; minimising XML adds or removes no part. (That no used media is removed is refuted: slides refer to media through relationships, which the code does not look at.) Exactly: compression removes the media whose file name occurs in no slide, the four document property parts and the notes slides, each if its option asks for it, and changes nothing else but the XML and relationship parts it minimises.", "quantifier": "every package", "why_tests_cant": "depends on how references are written in every possible package", "anchors": ["src/opc/compress.rs: remove_unused_media"]}
{"id": "C32", "title": "Markdown headings become slides in order", "statement": "Parsing a markdown document made of headings, paragraphs, flat lists, tables, code blocks, one-paragraph quotes and rules gives exactly one slide per level-1 heading, in order and with its text, followed where a rule occurs by a continuation slide; sub-headings, paragraphs and list items appear as lines of the slide they are under, in order, none lost or duplicated; parsing fails exactly when there is no level-1 heading and nothing that can open a slide. For every event stream, later text never changes a slide that is already complete, and no panic occurs unless an inline HTML fragment has a closing tag before any '>'.", "quantifier": "every event stream of the markdown tokenizer", "why_tests_cant": "event streams are unbounded", "anchors": ["src/cli/markdown/parser.rs: MarkdownParser"]}
{"id": "C33", "title": "HTML import respects its limits and keeps order", "statement": "Importing any HTML page ends, gives at most max_slides slides, and on a slide every line from position max(1, max_bullets) on is a sub-heading; what is appended to a page never changes the slides before the last; it does not panic if style attributes are ASCII. A page made of headings, paragraphs, flat lists, tables, preformatted text, quotations, images, rules, skipped elements and containers, without style attributes, gives exactly the slides the document stands for (one per level-1 heading, in order), whatever white space between tags, comments and declarations it has.", "quantifier": "every HTML text, option values, Unicode tables, image loader; every document of the listed blocks and every written form of it", "why_tests_cant": "adversarial input", "anchors": ["src/import/html.rs: tokenize_html, HtmlSlideParser, decode_entities"]}
{"id": "C34", "title": "Markdown export escapes reversibly", "statement": "Text exported to markdown is escaped so that undoing backslash escapes gives the original and no markup character is left bare; the exported document, read line by line, is exactly the presentation: its title, and for each slide in order the title, bullets, table (header, line of dashes, one line per row, the same cells), image references, code and notes. Domain: texts of one line without character references, strike-through or a leading list mark, cells without bars, code without fences, images PNG or JPEG, a title without markup; outside it each of these is refuted by an example.", "quantifier": "every string; every presentation and all export options on the domain stated", "why_tests_cant": "all strings", "anchors": ["src/export/md.rs: escape_markdown, export_table_to_gfm, escape_yaml"]}
{"id": "C35", "title": "HTML export shows the presentation and escapes code and notes", "statement": "The exported page, read as tags and texts, is exactly the presentation: title page, one page per slide in order with number, title, bullets, images, code and notes, whatever the code and notes contain. Titles, bullets, languages and file names are not escaped (the theorem needs them free of markup characters; outside, they can add tags), and table cells are replaced by a placeholder.", "quantifier": "every presentation and all export options; code and notes are arbitrary strings", "why_tests_cant": "injection", "anchors": ["src/export/html.rs: escape_html, export_to_html"]}
{"id": "C36", "title": "Document properties count slides and titles consistently", "statement": "app.xml is well-formed and reports the number of slides, exactly that many slide titles (padded or cut), and a heading-pair count equal to the size of the titles vector; the collected titles are one per slide, blank ones replaced, the same for streaming generation. core.xml shows the title when it contains no markup characters (with an ampersand the part is not even well-formed: a defect).", "quantifier": "every slide count and title list", "why_tests_cant": "all sizes", "anchors": ["src/generator/props_xml.rs: create_app_props_xml, heading_pairs_and_titles"]}
{"id": "C37", "title": "Timestamps are valid dates", "statement": "For every system time up to the year 9999 the created/modified timestamp has the W3CDTF form with a valid, correct time of day; its date exists in the calendar exactly when the day within the 365-day pseudo-year is not among the last five and is not a 29th/30th of February that does not exist (outside that domain, and as to the date being the right one, the claim is false: a defect). Timestamps keep the order of the times they are taken at, and the year is right or one too high.", "quantifier": "every second since the epoch", "why_tests_cant": "calendar arithmetic over all times", "anchors": ["src/generator/props_xml.rs: current_timestamp"]}
{"id": "C38", "title": "Connector geometry keeps both end points", "statement": "From the position, extent and flip flags written for a connector both original end points can be recovered exactly; the shapes it is glued to, its label and the look of its line (geometry, width, colour, dash pattern, arrow heads and their size) are the caller's too. (Not so for the connection sites: left and right are exchanged with respect to the DrawingML rectangle.)", "quantifier": "every pair of points", "why_tests_cant": "all coordinates", "anchors": ["src/generator/connectors.rs: width, height, flip_h, flip_v, generate_connector_xml"]}
{"id": "C39", "title": "Charts draw what they are given, combo charts every series once", "statement": "A chart part is well-formed XML holding the title, categories and series given: every chart type gives the plots with the settings of that type, a pie or doughnut draws the first series only, a combo chart draws each of its series exactly once, as bar or line, every drawn series carries its position as its distinct index, its name and its values in order, and scatter and bubble series carry x positions 1, 2, 3, ... and the sizes of the values. (Point indexes all 0, the four bar types drawn alike, and dropped pie series are recorded as refutations of the stronger claims.)", "quantifier": "every chart of every type: any title, categories, number of series and values", "why_tests_cant": "all lengths, odd/even/one", "anchors": ["src/generator/charts/xml.rs: generate_combo_chart_xml"]}
{"id": "C40", "title": "String tables become rectangular tables", "statement": "Building a table from rows of strings gives a table in which every row has as many cells as the longest row, the text of each given cell is in its place and the padding is empty.", "quantifier": "every list of rows", "why_tests_cant": "ragged inputs of any shape", "anchors": ["src/generator/table/style.rs: table_from_string_rows"]}
{"id": "C41", "title": "Two-column slides split bullets without loss", "statement": "The two-column layout shows every bullet exactly once, in order, left column first, with column sizes equal or the left one larger by one, each bullet with its level, text, size, bold, italic, underline, strike-through and baseline.", "quantifier": "every number of bullets", "why_tests_cant": "all lengths", "anchors": ["src/generator/layouts/two_column.rs", "src/generator/slide_xml/layouts.rs"]}
{"id": "C42", "title": "XML tree search is complete", "statement": "Parsing builds the document's element tree; find_all_descendants returns exactly the descendants with the given local name in document order, find_descendant returns the first of them, and text_content is the concatenation of all non-blank text below the node in document order when no element mixes text and elements. (With mixed content the order is lost; blank-only runs are dropped.) Element names, local names and attributes are those of the document, in order, and the children of a name are exactly the element children with that local name.", "quantifier": "every XML tree and name", "why_tests_cant": "trees are unbounded", "anchors": ["src/oxml/xmlchemy.rs: find_descendant, find_all_descendants, text_content"]}
{"id": "C43", "title": "A package reported valid satisfies the structural rules", "statement": "If validating an archive reports no error, then all required parts are present; every internal relationship of every readable relationship part whose tags give Id, Target, TargetMode in that order points at an existing part; every r:embed/r:id reference (rId...) in a slide has a relationship whose part exists; shape ids of a slide are distinct; every listed slide leads to a slide part and their numbers agree; every part is mentioned in the content types; every chart has its embedding. Outside that domain it fails: relationships with Target before Id, non-UTF-8 relationship parts and malformed XML pass unnoticed, and a generated deck with a code block that quotes r:id is reported.", "quantifier": "every package", "why_tests_cant": "soundness of a checker over all packages", "anchors": ["src/core/package_validation/rules.rs: validate_package", "src/core/package_validation/report.rs: is_valid"]}
{"id": "C44", "title": "Repair fixes are reported exactly and new ids are fresh", "statement": "Repair reports every issue found exactly once, as fixed or as unfixed, calls the result valid exactly when checking again finds nothing, leaves a package without issues alone, removes no part, adds only the four required parts (which are there afterwards; package relationships that were missing lead to the presentation and the document properties) and changes only relationship, content-type and presentation parts and blank XML parts. When the only issues are slides that are not listed and the relationship file puts its end tag on a line of its own, every such slide is listed in order under relationship and slide ids that count up from above every numeric id in the files, nothing else changes, and the package is then valid. (Refuted beyond that: one-line relationship files, a first slide id below 256, dangling list entries, targets with \"..\", u32 overflow, blank parts, and relationships made for a package without document properties, which dangle.)", "quantifier": "every package, every iteration order of the hash maps, every number of unlisted slides", "why_tests_cant": "all documents", "anchors": ["src/oxml/repair.rs: repair, find_max_rel_id, find_max_slide_id"]}
{"id": "C45", "title": "Merging presentations concatenates slides", "statement": "Adding slides and presentations to a presentation in any order and building gives the deck of all their slides in that order; building without slides is refused.", "quantifier": "every list of presentations", "why_tests_cant": "all sizes", "anchors": ["src/api.rs: Presentation::add_slide, add_presentation, build"]}
{"id": "C46", "title": "Section list XML reads back", "statement": "For a non-empty section manager whose names contain only characters XML allows in an attribute, the emitted section list parses as XML and lists the sections in order, each with its exact name, an id of the form {8-4-4-4-12 upper-case hex digits}, and the ids 256+i of exactly the slides i of the section that are below the slide count, in increasing order.", "quantifier": "every section manager, every slide count", "why_tests_cant": "all names and all ranges", "anchors": ["src/generator/slide_content/sections.rs: SectionManager::to_xml, generate_section_id"]}
{"id": "C47", "title": "Comment and author parts read back", "statement": "The comment-author part and the comment part parse as XML and list exactly the stored authors (id, name, initials, colour) and comments (author, date, index, position, text), in order, for names, initials and dates with only attribute-safe characters and texts with only XML characters other than carriage return.", "quantifier": "every list of authors and comments", "why_tests_cant": "all strings, including markup characters, and all lists", "anchors": ["src/generator/slide_content/comments.rs: CommentAuthor::to_xml, Comment::to_xml, CommentAuthorList::to_xml, SlideComments::to_xml"]}
{"id": "C48", "title": "Relationship parts round-trip", "statement": "Writing a relationship collection and parsing it back gives the same collection, including the next free id, for any history of additions whose ids, targets and types need no escaping and whose types are not extended-properties. (Extended-properties relationships come back as officeDocument; a target containing & makes the part unreadable.)", "quantifier": "every history of additions", "why_tests_cant": "all histories and strings", "anchors": ["src/parts/relationships.rs: Relationships::to_xml, from_xml, RelationshipType::uri, from_uri"]}
{"id": "C49", "title": "A table on a slide shows its cells", "statement": "The XML of a table is well-formed and shows, in place, the text of every cell not covered by a merge, its formatting (bold, italic, underline, size, colour, typeface, alignment to the left, right or both sides, top or bottom, background), the spans and coverings of the cells, the column widths, the row heights and the frame, provided colours are hexadecimal and sizes fit in 32 bits as hundredths of a point. Outside: text to be centred or in the middle, as it is by default, is written without alignment and so shown to the left, at the top.", "quantifier": "every table: any number of rows and cells, any formatting and any text XML can carry", "why_tests_cant": "tables, texts and formats are unbounded", "anchors": ["src/generator/table/xml.rs: generate_table_xml", "src/generator/table/format.rs: generate_cell_xml"]}
{"id": "C50", "title": "A generated slide shows its content", "statement": "For every slide whose texts are XML characters and whose colours, fonts and custom bullet characters hold no markup, the generated slide part is well-formed XML and shows: the title unchanged, with the alignment, size, weight, slant, underline and colour asked for (every layout but the blank one); every bullet in order with level, mark, text, size, formatting, colours and typeface (content layouts); the table cell by cell, with the look of each cell (title-and-content layout); every shape with its figure (for the kinds of shape that the library names as the format does), place, text, hyperlink id, fill or gradient, outline and rotation; every code block; every picture with name, alternative text, relationship id, place, crop and effects; every connector with both end points and the look of its line; one frame per chart with its place; and the transition. Fourteen kinds of shape are written under names the format does not know. Other layouts drop bullets and tables, and a table hides bullets.", "quantifier": "every slide description: layout, texts, numbers and kinds of elements", "why_tests_cant": "all texts (with any special characters), all numbers of elements, all combinations", "anchors": ["src/generator/slide_xml/mod.rs: create_slide_xml_with_content", "src/generator/slide_xml/layouts.rs", "src/generator/slide_xml/content.rs", "src/generator/shapes_xml.rs", "src/generator/images_xml.rs"]}
{"id": "C51", "title": "Generated decks are closed and fully typed packages", "statement": "In every generated deck no two parts have the same name, every relationship inside the package leads to an existing part, every part has the content type its kind requires, and every content type override names an existing part; provided image formats are jpg, png or gif and embedded fonts have distinct part names, and hyperlinks lead outside or to an existing slide. Outside: shapes that jump to the first/last/next/previous slide have a relationship that leads nowhere, and fonts whose names differ only in spaces share a part name.", "quantifier": "every deck (slides with any content, settings with any theme, signature, fonts), and every count of empty slides", "why_tests_cant": "a package is consistent only if five writers agree for every combination of contents", "anchors": ["src/generator/builder.rs: write_package_files", "src/generator/package_xml.rs: create_content_types_xml_with_notes_and_charts, create_presentation_rels_xml"]}
{"id": "C52", "title": "Lazy generation writes the same package", "statement": "Writing a deck from a lazy source that yields all its slides gives exactly the parts of the deck built from the list of slides (in another order), and the same content type declarations when there is no signature, embedded font or ink. Outside: signature, font and ink parts of a lazy deck have no or the wrong content type, and a source that fails to give a slide leaves a dangling slide relationship.", "quantifier": "every lazy source, title and settings", "why_tests_cant": "two separate writers must agree on every deck", "anchors": ["src/generator/builder.rs: LazySlideSource, create_pptx_lazy_to_writer, write_package_files_lazy"]}
{"id": "C53", "title": "A generated slide is read back as it was described", "statement": "Reading a generated slide gives its title, its bullets in order with text, level, size, bold, italic, underline and colour, its table with cell texts and spans, and its shapes with geometry, place, size and text, line by line if the text is a listing, followed by the frames of its code blocks with their place and size (white-space-only text is not kept; which bullets a layout shows is C50), for each slide of a generated deck at its index. The text of code blocks is not read back.", "quantifier": "every slide whose texts are XML characters and whose colours, fonts and ids need no escaping, every deck of them", "why_tests_cant": "the reader searches by local names and name substrings over generated XML; every combination of layout, formats, shapes and charts must stay out of the way", "anchors": ["src/oxml/slide.rs: SlideParser::parse, parse_text_body, is_title_shape, is_body_shape, parse_table_from_graphic_frame", "src/oxml/presentation.rs: get_slide, get_all_slides", "src/generator/slide_xml/layouts.rs"]}
{"id": "C54", "title": "Importing a saved deck", "statement": "Importing a presentation file fails exactly when a slide cannot be read; otherwise it gives the slides in order, each with its title, its body text as bullets, one shape for each that is neither title nor body (with its place, size and text, and its kind for the kinds the importer knows), and its first table. Of a generated deck exactly this much is kept, with the title of the deck when it needs no escaping, and what was imported, saved and imported again is the same presentation. Outside: pictures, notes, charts, connectors, fills and most kinds of shape are lost, so is a deck title with an ampersand, and the body of a slide that also has a table is no longer shown once saved.", "quantifier": "every package for the first part; every generated deck whose texts are XML characters for the second", "why_tests_cant": "writer, reader and importer must agree on every combination of layout, text, shape and table", "anchors": ["src/api.rs: Presentation::from_path", "src/import/mod.rs: import_pptx, map_shape_type", "src/oxml/presentation.rs: get_all_slides"]}
{"id": "C55", "title": "The server tools write the deck they report", "statement": "Creating from titles and bullets, from tables or from charts writes a deck with exactly the slides asked for, in order, and replies with their number; with nothing to write no file is made. Merging files writes the slides of all of them in the order of the paths under the title of the first, and fails without writing if there are fewer than two or one cannot be read. The summary of a saved deck gives its title, its slide count and for each slide its number, title, number of bullets and whether it shows a table or shapes. Outside: the reply to the table tool counts tables that were skipped because they are empty, the layout argument is ignored, and pictures and charts are never listed in a summary.", "quantifier": "every list of arguments whose texts are XML characters, every set of decks on disk", "why_tests_cant": "the reply must agree with the file for every argument list and every set of input files", "anchors": ["src/mcp/mod.rs: handle_create_presentation, handle_get_pptx_info, handle_merge_pptx, handle_create_with_tables, handle_create_with_charts"]}
{"id": "C56", "title": "Slide show settings", "statement": "With slide show settings the presentation properties of the deck say who presents (speaker, kiosk, individual), whether the show loops and plays animations, which slides are shown (all, or from a first to a last), the colour of the pen and the laser, and whether media controls are shown, as they were set; a pen colour given in hexadecimal keeps its value with or without a hash sign. Without settings there is no such element. Outside: narration always reads as switched off and saved timings as switched on (no attribute is written for the other value, and the defaults of the format are the opposite of the code's), and a custom list of slides does not name a custom show.", "quantifier": "every combination of settings, every deck and every hexadecimal colour", "why_tests_cant": "all combinations of eight settings and all numbers and colours, in every deck", "anchors": ["src/generator/slide_content/slide_show_settings.rs: SlideShowSettings::to_xml, PenColor::new", "src/generator/package_xml.rs: create_pres_props_xml"]}
{"id": "C57", "title": "Print settings", "statement": "With handouts to print the deck has a handout master that shows exactly the header, footer, date and page number asked for, each in one placeholder; otherwise it has none. With print settings the slide master shows exactly the footer, date and slide number asked for and a header placeholder if there is a header; shape numbers do not repeat; without print settings it shows none of them. Outside: the header placeholder of the slide master has no text, and colour mode, handout layout, frames, scaling, hidden slides and orientation make no difference to the deck at all.", "quantifier": "every combination of print settings with header and footer texts made of XML characters, every deck", "why_tests_cant": "arbitrary texts and all combinations of eleven settings, which also shift the numbering of the shapes", "anchors": ["src/generator/slide_content/print_settings.rs: PrintSettings::to_handout_master_xml", "src/generator/layout_parts.rs: slide_master_footer_shapes", "src/generator/package_cache.rs: print_affects_theme_parts"]}
{"id": "C58", "title": "Slides get the layout they ask for", "statement": "Each slide of a generated deck has exactly one relationship to a layout part; this part is of the type and name of the slide's layout and has its placeholders, on the page and not overlapping; it belongs to the slide master, whose list of layouts contains it. The master lists the seven layouts, each once, under ids that differ from each other and from the master's own.", "quantifier": "every deck of slides with any layouts, every settings", "why_tests_cant": "numbers of layouts, file names and relationship ids must agree for every slide of every deck", "anchors": ["src/generator/layout_parts.rs: create_slide_layout_xml", "src/generator/theme_xml.rs: create_slide_master_xml", "src/generator/builder.rs: write_theme_and_layouts"]}
{"id": "C59", "title": "Themes", "statement": "The theme part of a deck has the name, the twelve colours and the heading and body fonts of the theme it was given, and the Office theme if it was given none; a theme from a palette has the palette's colours, in hexadecimal with or without a hash sign, in the slots documented. Outside: a theme called \"Office Theme\" with the Office colours loses its fonts, including the default heading font.", "quantifier": "every theme whose name and fonts are XML characters and whose colours are attribute text, every deck", "why_tests_cant": "the part is made by cutting and pasting a fixed text at the first match of a pattern, which must be right for every name, colour and font", "anchors": ["src/generator/presentation_theme.rs: PresentationTheme::to_theme_xml, replace_font_latin, ThemeColorScheme::from_palette, normalize_hex"]}
{"id": "C60", "title": "Signature part", "statement": "With a signature the deck's signature part gives the signer's name, the comment if there is one, the commitment with its word, the date given and the digest algorithm under its standard name. Outside: the signer's address, organisation and title make no difference to the deck.", "quantifier": "every signature whose texts are XML characters, every deck", "why_tests_cant": "arbitrary names and comments in every combination", "anchors": ["src/generator/slide_content/digital_signature.rs: DigitalSignature::to_signature_xml"]}
{"id": "C61", "title": "Ink annotations", "statement": "A slide with ink has exactly one relationship to an ink part and uses it; the part holds one trace per stroke, in order, with its points, and the brush a trace names has the colour, width, tip and transparency of the stroke's pen. Outside: ink without strokes is written as an empty part, which is not an XML document.", "quantifier": "every list of strokes, every deck", "why_tests_cant": "any number of strokes and points, negative coordinates, and the numbering of parts and relationships across slides", "anchors": ["src/generator/slide_content/ink_annotations.rs: InkAnnotations::part_xml, InkStroke::to_xml", "src/generator/builder.rs: write_slides"]}
{"id": "C62", "title": "Mermaid flowcharts are drawn as they read", "statement": "A Mermaid flowchart written one statement to a line is drawn with one box for every node, with the caption and outline of its first mention, a frame and a title for every group, one label for every labelled line, and one connector for every line, in order, tied to the two boxes it joins and drawn in its manner; nothing else is drawn. Up to 800 parts, shape numbers do not repeat, no two boxes overlap, boxes of a group lie inside its frame and other boxes outside, frames do not overlap, titles lie in their frames and every connector ends in the middle of a side of the right boxes. Outside: chains of arrows lose nodes, later captions are ignored, a node in two groups is drawn twice, the outer of two nested groups is lost, RL and BT are drawn as LR and TB, places depend on the order of a hash map, an arrow in a caption is taken for a line, and open lines get an arrow head.", "quantifier": "every flowchart with any number of nodes, groups, lines and captions, every indentation, every hash order", "why_tests_cant": "any chart and any walk order of the hash map; no overlap is a statement about all pairs of boxes", "anchors": ["src/cli/markdown/mermaid/flowchart.rs: parse, generate_elements", "src/cli/markdown/mermaid/types.rs: DiagramElements"]}
{"id": "C63", "title": "Mermaid sequence diagrams are drawn as they read", "statement": "A sequence diagram written one statement to a line is drawn with two boxes and a life line for every participant, in the order and with the name of the first mention, and one arrow with its text for every message, in order. The participants stand from left to right, each life line joins its two boxes, and the arrow of a message goes from the middle of the sender to the middle of the receiver, one under the other, with the text over it. Up to six messages lie beside the life lines. Outside: dashed and solid arrows look the same, a message to oneself has no width, remarks with an arrow are drawn, a later name is lost, and the seventh message is drawn below the life lines.", "quantifier": "every diagram with any participants, names, messages and indentation (up to 1000 of each)", "why_tests_cant": "any conversation; the arrow of every message must join the right two boxes whatever came before", "anchors": ["src/cli/markdown/mermaid/sequence.rs: generate_shapes", "src/cli/markdown/mermaid/mod.rs: detect_type, create_diagram_elements"]}
{"id": "C64", "title": "Mermaid time lines, Gantt charts, journeys, git graphs and pies are drawn as they read", "statement": "Time lines: title, and for every date in order a date box over the line, a mark on the line and a box with everything that happened under it. Gantt charts: title, then every section heading and every task with its bar on its own row, in order. Journeys: a heading per section from left to right, under it every step with its score and the colour of the score. Git graphs: a named track per branch in the order of first mention, and each commit a labelled dot on the track of the branch it is made on, later ones further right; no label covers anything. Pies: a disc and for every slice a coloured key and a text with its share; up to eight keys differ. Nothing else is drawn. Outside: a date beginning with \"title\" is taken for the title; dates and durations of a Gantt chart make no difference and tasks before the first section go to it; a new branch is not switched to, commits on a branch never made are drawn on the first track, tags end up in the label; the disc of a pie is the same whatever the slices.", "quantifier": "every such diagram with any entries, texts and indentation (up to 1000 entries)", "why_tests_cant": "any number and order of entries, sections, branches and checkouts", "anchors": ["src/cli/markdown/mermaid/timeline.rs: generate_shapes", "src/cli/markdown/mermaid/gantt.rs: generate_shapes", "src/cli/markdown/mermaid/journey.rs: generate_shapes", "src/cli/markdown/mermaid/gitgraph.rs: generate_shapes", "src/cli/markdown/mermaid/pie.rs: parse, generate_shapes"]}
{"id": "C65", "title": "Mermaid state, class and entity diagrams are drawn as they read", "statement": "State diagrams: one box per state in the order of first mention ([*] is a disc, the start in front of an arrow and the end behind one), and for every transition one line from the right middle of its source to the left middle of its target, tied to both boxes at facing sides, pointed at the target, with the label in its middle. Class diagrams: for every class with a body a box with its name, under it one with its attributes and under that one with its methods, each in order, and for every relation between two such classes one line tied to both name boxes at facing sides. Entity diagrams: for every entity a name box over one box with the attributes of all its bodies, and for every bond one line tied to both, with its label in the middle. Every shape has a number of its own, and no two boxes overlap (classes up to six lines, entities up to seven attributes). Outside: a state named Start is merged with the start, descriptions, given names and nesting are lost, ends of lines leftwards lie on the other sides than their ties, labels cover box edges; all class arrows look the same and inheritance points at the heir, relations with labels and classes without bodies are lost, a body on one line swallows what follows, longer classes overlap; entity names are cut at small o and dashes, |o--o| is lost, the numbers on a bond make no difference, and places depend on hash order.", "quantifier": "every such diagram with any names, members, labels, indentation and asides (up to 1000 entries), and any hash order", "why_tests_cant": "any number and order of boxes and lines; every line must be tied to the right two boxes", "anchors": ["src/cli/markdown/mermaid/state_diagram.rs: generate_elements", "src/cli/markdown/mermaid/class_diagram.rs: generate_elements", "src/cli/markdown/mermaid/er_diagram.rs: generate_elements"]}
{"id": "C66", "title": "A diagram gets the title of its kind and is moved as a whole to the middle of the slide", "statement": "The first line of a Mermaid block, in any case and indentation and with anything behind it, alone decides the kind and so the title of the slide; other words on that line change nothing about the drawing (flowcharts take their direction from it). Blocks of unknown kind become one box that names their heading. Every shape and line of a diagram is moved by the same distance right and down, never resized; a diagram that is not wider than the slide nor further right than its middle ends up centred between the edges, and one that fits under the title and is not lower than the middle ends up centred under the title. Outside: any first word that merely begins like a heading is taken for one; a remark in front of the heading hides it; diagrams are never moved left or up nor made smaller, so that tall ones that would fit run off the slide, and wide ones always do.", "quantifier": "every text of a diagram, up to coordinates of two thousand million", "why_tests_cant": "every heading, and every drawing of any size and number of shapes", "anchors": ["src/cli/markdown/mermaid/mod.rs: detect_type, create_diagram_elements", "src/cli/markdown/parser.rs: add_mermaid_diagram"]}
{"id": "C67", "title": "Mermaid mind maps and quadrant charts show every text at its place", "statement": "Mind maps: a box in the middle with the text of the root, one box per branch on the inner ring in order, one per leaf on the outer ring next to its branch, each with its text inside, whatever brackets it is written in, and nothing else. Quadrant charts: four tiles of the same size and different colours around the middle, and for every point a round dot centred on the point its numbers give, with its name right beside it, in order. Outside: all leaves of one branch lie on top of each other; with fewer than nine blanks a leaf is taken for a branch; names in front of brackets are shown with the brackets; second roots and leaves before any branch are lost; titles, axes and names of quadrants are never drawn; a blank behind the colon of a point leaves the colon in its name.", "quantifier": "every mind map of any number of branches and leaves and every quadrant chart of any number of points, for any points on the rings and any reading of the numbers that stays on the slide", "why_tests_cant": "any number of branches, leaves and points; each must be found at the place of its own branch or numbers", "anchors": ["src/cli/markdown/mermaid/mindmap.rs: generate_shapes", "src/cli/markdown/mermaid/quadrant.rs: generate_shapes"]}
{"id": "C68", "title": "Reading a web page keeps every heading, paragraph, list item, quote, code block, picture and table, in order", "statement": "The contents of a page are taken from the first of a fixed list of areas (main article, article, main, ..., body) that has more than a hundred bytes of text. For every such area made of headings, paragraphs, list items, quotes, code, pictures with a description and tables, in any order, with any inline markup and any white space inside, wrapped in any other elements to any depth, and mixed with scripts, forms, comments and advertisements, exactly one block per item is read, in document order, with the words of the item separated by single blanks (code verbatim, tables as rows of cells), leaving out code, pictures or tables exactly when the configuration says so; scripts, forms and advertisements leave nothing. The title is the text of the title element, else of the first h1, else the og:title, else \"Untitled\"; the description is the nonblank meta description, else og:description. A page with nothing to show is refused. Outside: text that is in none of these elements, pictures inside paragraphs, paragraphs under ten bytes, headings from 300, list items from 500 and code over 1000 bytes and tables over 30 rows are lost; a list in a list is run together into one item; navigation menus are taken for contents; cells of a table in a table come twice.", "quantifier": "every page tree of any depth and width, every configuration, every result of looking up the areas, title and descriptions", "why_tests_cant": "pages nest without bound; order and completeness must hold for all of them", "anchors": ["src/web2ppt/parser.rs: WebParser::parse, walk_element, extract_title, extract_meta_description, extract_content, clean_text, extract_table"]}
{"id": "C69", "title": "A web page becomes slides that read back with every block under its heading, within the limits", "statement": "Converting the contents of a page gives a file that reads back as: a title slide with the given or the page title, and then, for each heading in order, as many slides as its lines need: the lines of its blocks in order, every slide but the last of a heading full, none empty and none with more than the limit, the first titled with the heading and the others with the heading and \"(cont.)\"; what comes before the first heading goes under the first; the deck is cut at the wanted number of slides and nothing else is lost. Lines: paragraphs, list items with a bullet sign, quotes in quotation marks, code, tables with their size, pictures with their description; long texts end with three dots at a character boundary, at a blank if there is one in the second half. Without grouping, or without headings, the same holds for pages of paragraphs and for sections that fit on a slide; then code, tables and pictures are left out, \"(cont.)\" piles up, and what precedes the first heading is titled Overview or Key Points. In every case the limits on slides and lines hold. Outside: the description and the source are never shown (the title layout drops them); headings with nothing under them get no slide; without grouping, list items and quotes that do not fit and quotes before any heading are lost; a limit of no lines gives empty slides and slides with one line.", "quantifier": "all contents with any number of blocks and headings in any order, all limits from one line, all options", "why_tests_cant": "any number of headings and blocks against any limits; the cut can fall anywhere", "anchors": ["src/web2ppt/converter.rs: Web2Ppt::convert, build_slides, build_grouped_slides, build_linear_slides, truncate_text, html_to_pptx_with_options", "src/web2ppt/parser.rs: WebContent::grouped_by_headings"]}
{"id": "C70", "title": "Presentations made from the built-in kinds read back with the promised pages and lines", "statement": "A business proposal, training material, status report, technical document or simple deck reads back with exactly the promised slides in order, each with its title and all lines given for it in order (pairs joined by a colon or a dash), one slide per module or component, and the optional slides (blocked items, metrics, API reference) exactly when there is something to show. The author, date, version and the discussion line of the title and last slide are never shown, as the centred title layout drops them.", "quantifier": "all titles and all lists of lines, modules and pairs of any length whose texts XML can hold", "why_tests_cant": "lists of any length; every line must be found on its own slide", "anchors": ["src/templates.rs: business_proposal, training_material, status_report, technical_doc, simple"]}
{"id": "C71", "title": "The layout helpers put shapes that fit on the slide, centred, evenly spaced and without overlap", "statement": "A shape no larger than the slide is centred with as much room on either side (an odd unit goes right or below). A grid of cells that fit has one position per cell, row by row, cell next to cell, centred, all on the slide and none overlapping. A row or column of shapes that fits has the wanted gap between all neighbours, is centred, stays on the slide and overlaps nothing. Shapes distributed over the width start and end half an inch from the edges (up to less than one unit per gap), with equal gaps; one shape is centred. Outside: what does not fit is placed beside the slide, because the position wraps around (and panics in a debug build).", "quantifier": "all counts, sizes, gaps and offsets (32-bit unsigned) that fit on a slide of 10 by 7.5 inches", "why_tests_cant": "all sizes and counts; freedom from overlap is about every pair", "anchors": ["src/prelude.rs: layouts::center, layouts::grid, layouts::stack_horizontal, layouts::stack_vertical, layouts::distribute_horizontal"]}
{"id": "C72", "title": "A quick deck reads back as the slides added to it, in order", "statement": "A deck built with the quick builder reads back with one slide per call, in call order: title and bullets, a title alone, the slide given, or a title with exactly the shapes given. A deck made of only a number of slides reads back with that many slides, the first titled Presentation and slide k titled \"Slide k\". Outside: a quick deck without any slide has one slide, but it is titled Presentation and not with the given title.", "quantifier": "all sequences of builder calls, all texts XML can hold, all slide counts", "why_tests_cant": "any sequence of calls of any length", "anchors": ["src/prelude.rs: QuickPptx::new, QuickPptx::slide, QuickPptx::title_slide, QuickPptx::content_slide, QuickPptx::shapes_slide, QuickPptx::build", "src/generator/builder.rs: create_pptx"]}
{"id": "C73", "title": "Quick tables hold exactly the given cells, with equal columns that fill ten inches", "statement": "The table helpers give one row per row of data with the given texts as plain cells, empty cells where only a size is given, and header cells bold, white on dark blue and centred; rows added to a quick table come in call order and the last position given is the one used. Unless widths are given, the columns are as wide as equal columns can be in ten inches. Put on a slide, a table from data reads back with the same cells. Outside: with no columns, or no data at all, the helpers panic.", "quantifier": "all numbers of rows and columns from one, all data, all sequences of fill calls", "why_tests_cant": "any data of any shape and any sequence of calls", "anchors": ["src/helpers/tables.rs: simple_table, table_from_data, table_with_header, QuickTable::new, QuickTable::with_widths, QuickTable::header, QuickTable::row, QuickTable::styled_row, QuickTable::rows, QuickTable::at"]}
{"id": "C74", "title": "Document properties set on a part are the ones written and read back", "statement": "After any history of setting the title, subject, creator, keywords, description and of touching it, a core properties part written and read again gives the last value of each (a blank one counts as none), the creation time, the time of the last touch, and one revision more for each touch. An application properties part writes the last application name, company, slide count and format set, and the documented defaults otherwise. Outside: dates of core properties and all texts of application properties are written as they are, so \"A & B\" as company makes a part that cannot be read; the revision starts again at 0 after 4294967295; whatever is set on application properties after reading is never written.", "quantifier": "all histories of calls of any length, all texts XML can hold (for application properties: that need no escaping), fewer than 4294967295 touches", "why_tests_cant": "any history of calls and any text", "anchors": ["src/parts/coreprops.rs: CorePropertiesPart::new, set_title, set_subject, set_creator, set_keywords, set_description, touch, to_xml, from_xml", "src/parts/app_props.rs: AppPropertiesPart::new, set_application, set_company, set_slides, set_presentation_format, to_xml, from_xml"]}
{"id": "C75", "title": "A presentation part lists its slides under distinct numbers and resolvable ids, and content types declare exactly the given parts", "statement": "Adding slides to a new presentation part returns the numbers 257, 258, ..., all different; the part written lists exactly these with the given relationship ids, in order, and read again gives the same slides, master and size. Its relationships, written and read, resolve the id of the master, of the theme and of slide k to the master, the theme and slides/slide k, whenever these ids are all different. A content types part writes exactly the declared part names with the media type of their kind, in order. Outside: on a new part the theme takes rId2, so a slide added under that id resolves to the theme; adding to a part that was read can repeat a number; the theme id is not read back; reading content types reads nothing; names and types are written as they are.", "quantifier": "all lists of relationship ids (fewer than 4294967040), all sizes, masters and themes, all sequences of declared parts", "why_tests_cant": "any number of slides and any ids; distinctness is about every pair", "anchors": ["src/parts/presentation.rs: PresentationPart::new, add_slide, set_slide_master, set_theme, set_dimensions, create_relationships, to_xml, from_xml", "src/parts/content_types.rs: ContentTypesPart::new, add_default, add_override, add_presentation, add_slide, add_slide_layout, add_slide_master, add_theme, add_notes_slide, add_chart, add_core_properties, add_app_properties, to_xml, from_xml", "src/parts/relationships.rs: Relationships::add, add_with_id, to_xml"]}
{"id": "C76", "title": "Layouts, masters, themes, notes and slides as parts hold what was set on them", "statement": "A layout part has the code of its type and its name. A master lists its layouts in order under the given ids, numbered from 2147483649, all different when the ids are. After any history of calls a theme has the last name and fonts set, and each colour name has the last value set for it, or that of the Office theme, once. Notes have one paragraph per line of the text. A slide part written and read again gives the title and bullets of the slide, and writes the same text; one that was read and is given another slide writes that slide. Outside: the same layout id twice has one number twice; names and fonts are written as they are; whatever is set on a layout, master or theme after reading is never written; notes read from a text have no text and number 1; the title of a slide part is the one read, even after another slide is set.", "quantifier": "all layout types and names, lists of ids, histories of theme calls, notes texts and slides; texts that need no escaping for layouts, masters and themes", "why_tests_cant": "any history of calls, any text and any slide", "anchors": ["src/parts/slide_layout.rs: SlideLayoutPart::new, set_name, to_xml, from_xml", "src/parts/slide_master.rs: SlideMasterPart::new, add_layout_rel_id, to_xml, from_xml", "src/parts/theme.rs: ThemePart::new, set_name, set_major_font, set_minor_font, set_color, to_xml, from_xml", "src/parts/notes_slide.rs: NotesSlidePart::with_text, set_notes_text, to_xml, from_xml", "src/parts/slide.rs: SlidePart::from_content, set_content, title, body_text, create_relationships, to_xml, from_xml"]}
{"id": "C77", "title": "The command-line tool reports faithfully and writes where it should", "statement": "Whatever the file is called and whatever was found, what `validate --json` prints is one JSON value: the file, whether it is valid, the numbers of errors and warnings, and every finding in order with severity, category, path or null, and message. Without --json the lines printed are the summary, two lines for each finding, and the verdict. The exit status is 0 exactly if no error was found. Without an output path, md2ppt and html2ppt write beside the input under its name with the ending replaced by .pptx. The format of an export is the one asked for, else that of the ending in letters of either kind, else PDF. merge writes the slides of all inputs in their order under the title of the first, and nothing if one cannot be imported. Outside: an input that ends in .pptx is overwritten, inputs that differ in their endings share an output, an input in the root directory gets two slashes.", "quantifier": "all file names and reports, messages and paths of any bytes (without line breaks for the report in lines), all paths with a proper file name, all lists of decks the library saved", "why_tests_cant": "any text can be in a name or a message and any number of findings or inputs", "anchors": ["src/cli/commands.rs: ValidateCommand::execute, print_json, print_human, json_string", "src/core/package_validation/report.rs: PackageValidationReport::is_valid, error_count, warning_count", "src/bin/pptcli.rs: main (md2ppt, html2ppt, validate, export, merge)"]}
{"id": "C78", "title": "Measures become EMU as the real numbers they stand for say", "statement": "A measure in inches, centimetres or points (914400 EMU, 2.54 cm, 72 points to the inch) gives the whole part of its number of EMU, up to a four-millionth where the number is that close to the next whole one; exactly that number when it is whole. A longer measure never gives fewer EMU; whatever the number, infinities and NaN included, the result is a 32-bit number, 0 for negative ones and NaN and the largest for those too long. A ratio gives no more than the length it is taken of, all of it from 1 on and nothing up to 0, and the whole part of the share in between; percentages likewise; a position takes its x of the width and its y of the height. Signed coordinates and angles are exact when whole, and keep the order. EMU turned into inches and back give the same number or one less. A picture scaled to a width or height keeps its proportions to within an EMU and a hundred-thousandth. Outside: measures written in decimals can be an EMU short (0.57 inch, 0.35 cm, 2.3 pt), 61 EMU come back as 60, scaling a picture 1 by 93 to its own width makes it 92 high, and one without width or height is stretched without bound or vanishes.", "quantifier": "all 64-bit floating-point numbers, all 32-bit reference lengths, all image sizes whose result fits", "why_tests_cant": "there are 2^64 numbers, and rounding goes wrong at few of them", "anchors": ["src/core/dimension.rs: Dimension::to_emu, percent, FlexPosition, FlexSize", "src/core/validation.rs: clamp_ratio", "src/elements/position.rs: Position::from_inches, from_cm, Size, Transform::with_rotation", "src/generator/shapes.rs: emu_to_inches, inches_to_emu, cm_to_emu", "src/generator/images.rs: aspect_ratio, scale_to_width, scale_to_height"]}
{"id": "C79", "title": "Colours are made lighter, darker, transparent, mixed and gray as real numbers say", "statement": "A colour made lighter is nowhere darker and keeps its opacity; each channel goes the given part of the way to 255, cut off to a whole number (up to 1/65536 near the next one). More of it is never darker; nothing or less leaves the colour, all of it or more makes it white. Likewise darker, down to black. An opacity is the given part of 255; a transparency in percent gives exactly the rest, and none beyond 100. A mixture is the weighted mean of each channel, opacity included: never above both colours, below both by at most 1; at the ends it is one of the two. A gray has the weighted mean 0.299, 0.587, 0.114 in all channels; what was gray already loses at most 1. Outside: a colour mixed with itself can change and stop being opaque, a gray can become darker, an amount that is not a number makes every colour black even when it should be made lighter.", "quantifier": "all colours of four bytes, all finite 32-bit floating-point amounts, all percentages of a byte", "why_tests_cant": "2^32 amounts times 2^24 colours, with rounding at few of them", "anchors": ["src/helpers/colors.rs: ColorValue::lighter, darker, opacity, transparent, mix, grayscale"]}
{"id": "C80", "title": "The text of a shape gets a size that fits and a colour that can be read", "statement": "The font size chosen for the text of a shape is between 6 and 72 points. At a size above the least one, every line is at most as wide as the room in the shape (its width less a fifth of an inch, 10 points at least), at half the size for a character, and the lines are at most as high as its height so reduced, at 115 percent of the size each. No smaller size is taken than fits: any size at which every line is narrow enough and the lines are low enough even if each took half as much again (nothing more, if none has more than 30 characters) is reached. A larger shape never gets smaller text. On a fill given in six hexadecimal digits the text is white if the fill is darker than the middle (0.299 R + 0.587 G + 0.114 B < 128) and black if it is lighter. Outside: at the least size text may not fit; a shape without any room gets 8.69 points; of the colours exactly in the middle some are taken for dark, as 808080; a fill whose first six bytes break a character ends the program.", "quantifier": "all texts that memory can hold, all shape sizes of 32 bits, whatever counts as white space, all colours", "why_tests_cant": "texts and sizes are unbounded, and the arithmetic is rounded at every step", "anchors": ["src/generator/shapes_xml.rs: calculate_font_size, estimate_wrapped_lines, FontMetrics, is_dark_color, get_text_color"]}
{"id": "C81", "title": "Gradient fills show their stops, in order, and their direction", "statement": "A gradient of any number of stops is written as well-formed XML that shows every stop in the order given: its place (at most 100 percent), its colour and its opacity; the angle of a linear gradient, the rings of another; and whether it turns with its shape. Sorting a gradient changes nothing but the order of its stops: they come in the order of their places, those at one place in the order given. The ready-made gradients run in order from one end to the other. Outside: an angle over 71582 degrees is written as another one, and a colour that is not hexadecimal can break the XML.", "quantifier": "all kinds, directions and lists of stops with hexadecimal colours", "why_tests_cant": "stops, places and angles are unbounded", "anchors": ["src/generator/gradients.rs: GradientFill, GradientStop, PresetGradients"]}
{"id": "C82", "title": "Videos, sounds and pictures get the right kind, type and place", "statement": "The kind of a video or sound is found from its extension in any case, known extensions only, and its MIME type and extension belong to that kind. A video or sound placed on a slide is written as well-formed XML showing its name, relationship ids and frame. Media and image parts get a path made of their number and extension, so different numbers or extensions give different paths, and the relationship and content types that belong to them. Outside: playback options and posters are never written; TIFF pictures and media parts are given content types that are not theirs.", "quantifier": "all extensions, names, frames, options, numbers", "why_tests_cant": "names, numbers and extensions are unbounded", "anchors": ["src/generator/media.rs: VideoFormat, AudioFormat, generate_video_xml, generate_audio_xml", "src/parts/media.rs: MediaPart", "src/parts/image.rs: ImagePart"]}
{"id": "C83", "title": "Table parts show every cell, span, look, column and frame", "statement": "A table kept as a part of its own is written as well-formed XML that shows its number, the text of every cell in its place, the spans, column widths, given row heights and the frame; the background, borders, margins and text looks of every cell; and alignment and anchor where they are not the centre. Columns that are given no width share that of the table. Outside: the width of the columns can differ from that of the frame; rows may be of different lengths; centred text is written without alignment; a cell covered from above is marked as covered from the left; double borders are given a dash that does not exist; typefaces are unescaped; sizes wrap over 32 bits.", "quantifier": "all tables of any rows, cells, spans and looks with texts XML can carry", "why_tests_cant": "rows, cells, spans and texts are unbounded", "anchors": ["src/parts/table.rs: TablePart, TableRowPart, TableCellPart, to_slide_xml"]}
{"id": "C84", "title": "Frames of text show every paragraph and run with its looks", "statement": "A frame of text is written as well-formed XML that shows its wrapping, margins and anchor and every paragraph in order: alignment, level (at most 8), space before and after, bullet, and every run with its text, bold, italic, underline, size, colour and typeface. A frame with no paragraph shows an empty one. A format on its own writes bold, italic, underline, strikethrough, subscript or superscript, size and highlight; text from the right names its direction, language and typeface. Outside: a run never writes strikethrough, highlight, subscript and superscript; line spacing is never written; sizes wrap over 32 bits; colours and language are unescaped.", "quantifier": "all frames, paragraphs and runs with texts XML can carry", "why_tests_cant": "paragraphs, runs and texts are unbounded", "anchors": ["src/generator/text/frame.rs: TextFrame", "src/generator/text/paragraph.rs: Paragraph", "src/generator/text/run.rs: Run", "src/generator/text/format.rs: TextFormat", "src/generator/text/rtl.rs: RtlTextProps"]}
{"id": "C85", "title": "Stand-alone slide layouts show the title, bullets and objects they keep", "statement": "Writing a slide with the stand-alone layouts gives well-formed XML. Every layout but the blank one shows the title with its looks; the content layouts show every bullet in order with level, mark and looks; two columns split the bullets without loss, the left at most one longer, in boxes that do not overlap; title-and-content also shows a table cell by cell, the shapes in order, and a box naming each image. The blank layout shows nothing. All drawing ids of a slide differ. The other layouts depend on nothing but the title, the bullets and their common looks.", "quantifier": "Every slide whose texts are XML characters and whose other fields are well-formed, either setting of content underlining, and every layout.", "why_tests_cant": "Titles, bullets, shapes, images and tables are unbounded in number and content; tests look at a few literals by substring.", "anchors": ["src/generator/layouts/mod.rs: create_slide_xml_for_layout", "src/generator/layouts/title_content.rs", "src/generator/layouts/two_column.rs", "src/generator/layouts/common.rs"]}
