{
 "claims": [
  {
   "property": "C01",
   "status": "proved",
   "theorems": [
    "C01_group_best_match",
    "C01_group_total"
   ],
   "note": ""
  },
  {
   "property": "C02",
   "status": "proved",
   "theorems": [
    "C02_renderer_cascade"
   ],
   "note": ""
  },
  {
   "property": "C03",
   "status": "partial",
   "theorems": [
    "C03_default_renderer_refuted",
    "C03_settings_cascade_partial"
   ],
   "note": "per-key cascade proved whenever a rule names a renderer; refuted for elements that get the default renderer (their settings-only rules are dropped)"
  },
  {
   "property": "C04",
   "status": "proved",
   "theorems": [
    "C04_root_never_matches",
    "C04_text_never_matches"
   ],
   "note": ""
  },
  {
   "property": "C05",
   "status": "proved",
   "theorems": [
    "C05_css_semantics"
   ],
   "note": "the theorem covers attribute and nth-child selectors in the nesting as well"
  },
  {
   "property": "C06",
   "status": "partial",
   "theorems": [
    "C06_nth_child_nonpositive_refuted",
    "C06_nth_child_partial"
   ],
   "note": "proved for every k >= 1; refuted for k <= 0 (matches the wrong element or raises IndexError); C75_nth states exactly what happens for every argument"
  },
  {
   "property": "C07",
   "status": "partial",
   "theorems": [
    "C07_attribute_partial",
    "C07_class_value_refuted",
    "C07_empty_value_refuted",
    "C07_nbsp_refuted",
    "C07_valueless_refuted"
   ],
   "note": "proved for non-empty operands, attributes with values, CSS white space, class only with presence and ~=; each exclusion is refuted by a witness; C75_attribute states exactly what happens for every operator and value"
  },
  {
   "property": "C08",
   "status": "proved",
   "theorems": [
    "C08_comparison",
    "C08_counts",
    "C08_operators",
    "C08_total_order"
   ],
   "note": " C08_counts: a selector's specificity counts the simple selectors written in it (ids; classes, attributes and pseudo-classes; names and the pseudo-element)."
  },
  {
   "property": "C09",
   "status": "proved",
   "theorems": [
    "C09_tree_keeps_everything"
   ],
   "note": ""
  },
  {
   "property": "C10",
   "status": "proved",
   "theorems": [
    "C10_round_trip"
   ],
   "note": ""
  },
  {
   "property": "C11",
   "status": "partial",
   "theorems": [
    "C11_stray_end_tag_partial",
    "C11_stray_pre_end_refuted"
   ],
   "note": "proved for every end tag except </pre> while the pre flag is set; that case is refuted"
  },
  {
   "property": "C12",
   "status": "proved",
   "theorems": [
    "C12_void_end_ignored",
    "C12_void_no_children"
   ],
   "note": ""
  },
  {
   "property": "C13",
   "status": "proved",
   "theorems": [
    "C13_reference_numbers"
   ],
   "note": ""
  },
  {
   "property": "C14",
   "status": "partial",
   "theorems": [
    "C14_after_block_partial",
    "C14_image_dangles_refuted",
    "C14_inside_inline_refuted",
    "C14_numbers_partial"
   ],
   "note": "C38_page gives the shape of the page (contributions, then newline and the footer entries of `listed` links in document order). C14_numbers_partial: with links in the footer and images there or inline the numbers listed are exactly 1..n. C14_after_block_partial: a link for after_block is pending at its parent, in document order (what its parent prints is C47). Refuted in general: images for the footer are never listed when links are placed elsewhere, and an image after the block inside an inline link is dropped."
  },
  {
   "property": "C15",
   "status": "partial",
   "theorems": [
    "C15_reset_partial",
    "C15_reset_refuted"
   ],
   "note": "reset() keeps the pre flag: proved when the last pre tag before reset was not a start tag, refuted otherwise"
  },
  {
   "property": "C16",
   "status": "partial",
   "theorems": [
    "C16_close_again_partial",
    "C16_close_again_refuted",
    "C16_close_empty_partial"
   ],
   "note": "Refuted: closing twice duplicates the page. Partial: closing again never fails and prints the same body once more (C16_close_again_partial); closing an empty document twice changes nothing."
  },
  {
   "property": "C17",
   "status": "proved",
   "theorems": [
    "C17_collapse"
   ],
   "note": ""
  },
  {
   "property": "C18",
   "status": "partial",
   "theorems": [
    "C18_nested_pre_refuted",
    "C18_pre_verbatim_partial",
    "C18_text_stored"
   ],
   "note": "proved for documents without a pre inside a pre; refuted for nested pre"
  },
  {
   "property": "C19",
   "status": "partial",
   "theorems": [
    "C19_bracket_refuted",
    "C19_events_partial",
    "C19_long_reference_refuted",
    "C19_numbered_list_refuted",
    "C19_pieces_partial",
    "C19_split_refuted",
    "C19_split_text_partial",
    "C19_white_space_refuted"
   ],
   "note": "refuted at cuts with white space on both sides, in a value with a closing bracket, in a very long numeric reference and in text directly in a numbered list; proved for every other cut of carefully written source text, and for every cut of text events outside those places"
  },
  {
   "property": "C20",
   "status": "proved",
   "theorems": [
    "C20_constructor"
   ],
   "note": "Selectors are taken already parsed (cssselect is outside the model)."
  },
  {
   "property": "C21",
   "status": "proved",
   "theorems": [
    "C21_plain_width",
    "C21_wrapped_width"
   ],
   "note": ""
  },
  {
   "property": "C22",
   "status": "proved",
   "theorems": [
    "C22_lossless"
   ],
   "note": ""
  },
  {
   "property": "C23",
   "status": "partial",
   "theorems": [
    "C23_budget_exact",
    "C23_endless",
    "C23_outcome",
    "C23_returns_partial",
    "C23_wide_indent_refuted",
    "C23_wide_indent_text_refuted"
   ],
   "note": "that wrapping always returns is refuted for indents wider than the width (the loop never stops); C23_outcome decides for every text and every settings whether it returns lines, raises ValueError or never returns; the model's iteration budget is proved exact"
  },
  {
   "property": "C24",
   "status": "partial",
   "theorems": [
    "C24_greedy",
    "C24_nbsp_refuted",
    "C24_words_kept"
   ],
   "note": "words and greedy filling proved for pieces between ASCII white space; refuted for Python's wider notion of a word (U+00A0)"
  },
  {
   "property": "C25",
   "status": "partial",
   "theorems": [
    "C25_nbsp_refuted",
    "C25_width_partial"
   ],
   "note": "proved for escape-free text with ASCII white space, long-word breaking, drop_whitespace, indents narrower than the width; refuted when a line ends in a no-break space"
  },
  {
   "property": "C26",
   "status": "partial",
   "theorems": [
    "C26_double_space_refuted",
    "C26_gaps_partial",
    "C26_plain_partial",
    "C26_styled_refuted"
   ],
   "note": "proved for every wrapped line whose raw length is at most the width (all escape-free text); refuted for styled text (gap removed) and for gaps that were already two spaces (added widths differ by more than one)"
  },
  {
   "property": "C27",
   "status": "proved",
   "theorems": [
    "C27_center",
    "C27_left",
    "C27_none",
    "C27_right",
    "C27_unknown"
   ],
   "note": ""
  },
  {
   "property": "C28",
   "status": "partial",
   "theorems": [
    "C28_chunks_partial",
    "C28_hyphen_refuted",
    "C28_long_word_refuted",
    "C28_text_partial"
   ],
   "note": "proved for chunks, and for single-spaced words, that are not broken; refuted for hyphenated words and for long words that must be broken"
  },
  {
   "property": "C29",
   "status": "proved",
   "theorems": [
    "C29_construction",
    "C29_no_aliasing",
    "C29_widths"
   ],
   "note": ""
  },
  {
   "property": "C30",
   "status": "proved",
   "theorems": [
    "C30_rectangular"
   ],
   "note": ""
  },
  {
   "property": "C31",
   "status": "partial",
   "theorems": [
    "C31_border_refuted",
    "C31_chain_is_block",
    "C31_chain_partial",
    "C31_padding_refuted",
    "C31_siblings_refuted"
   ],
   "note": "Proved for chains of nested blocks where only the innermost has padding and no bordered block is inside another border; refuted in general: padding, nested borders and adjacent blocks push text past the width."
  },
  {
   "property": "C32",
   "status": "partial",
   "theorems": [
    "C32_blank_after_refuted",
    "C32_blank_before_refuted",
    "C32_break_refuted",
    "C32_heading_line_partial",
    "C32_heading_partial"
   ],
   "note": "Exact text of a heading for every content, box and placement (C32_heading_partial); one line of its own when the content has no newline. The blank line before/after is refuted when the neighbour is inline text, and a <br> in the heading splits it."
  },
  {
   "property": "C33",
   "status": "partial",
   "theorems": [
    "C33_numbers_partial",
    "C33_start_step_partial",
    "C33_table_start_refuted",
    "C33_whitespace_refuted"
   ],
   "note": "Label is 1 + number of items before, when the list has only li children; start/step respected when given by a renderer class. Refuted: whitespace text between items is counted, and start_index/step from the rule table are ignored."
  },
  {
   "property": "C34",
   "status": "proved",
   "theorems": [
    "C34_break",
    "C34_markers"
   ],
   "note": "For every document, box and placement with the library's renderers."
  },
  {
   "property": "C35",
   "status": "partial",
   "theorems": [
    "C35_code_partial",
    "C35_inside_pre_refuted",
    "C35_pre"
   ],
   "note": "Code directly in pre unchanged, otherwise backticks or fences; every line of a pre (as str.splitlines sees lines) indented by 4 columns, in order. Refuted for code deeper inside a pre."
  },
  {
   "property": "C36",
   "status": "proved",
   "theorems": [
    "C36_nested",
    "C36_quote"
   ],
   "note": "Every line of the content of a blockquote (as str.splitlines sees lines) is marked; nested quotations of any depth give one marker per level."
  },
  {
   "property": "C37",
   "status": "proved",
   "theorems": [
    "C37_trailing"
   ],
   "note": "Outcome and every line compared between the two settings, for every history of calls."
  },
  {
   "property": "C38",
   "status": "proved",
   "theorems": [
    "C38_box",
    "C38_page"
   ],
   "note": "For every history without an intermediate close."
  },
  {
   "property": "C39",
   "status": "partial",
   "theorems": [
    "C39_builtin",
    "C39_define_isolated",
    "C39_equal_refuted",
    "C39_inherit_exact_partial",
    "C39_inherit_partial",
    "C39_left",
    "C39_new_isolated",
    "C39_override",
    "C39_write_isolated"
   ],
   "note": "The method resolution order is given as a list (Python computes it). Exact result proved (C39_inherit_exact_partial); the English claim holds when no two classes of the MRO carry equal non-empty dictionaries, in particular for all 26 built-in classes (C39_builtin), and is refuted otherwise (C39_equal_refuted). Isolation is proved on a heap model of the dictionaries (SettingsHeap). Equality of settings is specified on its own (Python ==), and C39_left says that what is left of a settings object exists and is unique."
  },
  {
   "property": "C40",
   "status": "proved",
   "theorems": [
    "C40_all_names",
    "C40_methods",
    "C40_one_map",
    "C40_reserved",
    "C40_reserved_names_differ",
    "C40_settings"
   ],
   "note": "For names dict does not define; for the others the two syntaxes differ (C40_reserved_names_differ). C40_all_names covers every name, those dict defines included, with two stores."
  },
  {
   "property": "C41",
   "status": "proved",
   "theorems": [
    "C41_colour_codes",
    "C41_six_digits",
    "C41_three_digits"
   ],
   "note": ""
  },
  {
   "property": "C42",
   "status": "partial",
   "theorems": [
    "C42_applied_and_undone_partial",
    "C42_font_refuted",
    "C42_palette_zero_refuted"
   ],
   "note": "Proved for every combination of effects and colours except: a font raises NameError, palette entry 0 is ignored (both refuted by witnesses)."
  },
  {
   "property": "C43",
   "status": "proved",
   "theorems": [
    "C43_invisible",
    "C43_nested"
   ],
   "note": ""
  },
  {
   "property": "C44",
   "status": "partial",
   "theorems": [
    "C44_default_port_refuted",
    "C44_gopher_partial",
    "C44_parameters_refuted",
    "C44_relative_partial",
    "C44_web",
    "C44_web_accepted"
   ],
   "note": "Web URLs: proved in full. Relative and gopher hrefs: under a plain host and no port/userinfo oddities (C44_relative_partial, C44_gopher_partial). The default-port half is refuted: a gopher href without a port gives port None. Parameters after ';' are dropped (refuted). C76 gives the exact target of every href."
  },
  {
   "property": "C45",
   "status": "partial",
   "theorems": [
    "C45_depends_on_directory_refuted",
    "C45_dotted_directory_refuted",
    "C45_extension",
    "C45_menu_partial"
   ],
   "note": "Item type follows the extension of the last component when it has one (C45_extension); no extension gives a menu unless a dot occurs in a directory (refuted)."
  },
  {
   "property": "C46",
   "status": "partial",
   "theorems": [
    "C46_image_refuted",
    "C46_margin_refuted",
    "C46_record_partial",
    "C46_title_break_refuted",
    "C46_title_tab_refuted"
   ],
   "note": "Proved for links (a) whose title or text, target and host have no tab or line break: the entry is one line with exactly the four fields; tabs and breaks in gopher and relative targets are removed by urlparse. Refuted in general: a tab or break in the title, records following an image record (padded with blanks by the block renderer), and pages with a left margin."
  },
  {
   "property": "C47",
   "status": "partial",
   "theorems": [
    "C47_description_partial",
    "C47_entry_partial",
    "C47_limit_partial",
    "C47_negative",
    "C47_padded_refuted"
   ],
   "note": "Proved for every text and limit unless the text is padded with blanks and the limit falls between the lengths with and without padding; there the ellipsis is added without anything being cut (refuted). Entry-level theorem for the library's limit of 10 and for classes with their own limit. C47_negative: a limit below zero leaves out that many characters at the end, and the ellipsis is always added."
  },
  {
   "property": "C48",
   "status": "partial",
   "theorems": [
    "C48_extracted_refuted",
    "C48_inline_refuted"
   ],
   "note": "Refuted universally: two rule tables for extracted links that differ in settings only give the same result (or error) for every document and every option set. For links placed inline, refuted for every settings dictionary."
  },
  {
   "property": "C49",
   "status": "proved",
   "theorems": [
    "C49_kept"
   ],
   "note": "C49_kept: for every event history without close, stock renderers and any options, the visible characters of all text fed since the last reset are in the output in order."
  },
  {
   "property": "C50",
   "status": "partial",
   "theorems": [
    "C50_code_refuted",
    "C50_columns_partial",
    "C50_page_partial",
    "C50_quotation_refuted"
   ],
   "note": "Proved for every document of paragraphs, quotations and divisions at any depth (C50_columns_partial, C50_page_partial). Missing from the English claim: texts with escape characters (there only the visible width is bounded, C21), a paragraph that is one piece of code (C50_code_refuted) and white space before the first paragraph of a quotation (C50_quotation_refuted); there the claim is false."
  },
  {
   "property": "C51",
   "status": "partial",
   "theorems": [
    "C51_every_run",
    "C51_hidden_refuted",
    "C51_lines",
    "C51_not_written_refuted",
    "C51_page",
    "C51_printed_partial",
    "C51_setup"
   ],
   "note": "Refuted: the tool prints the page and never writes the destination (C51_not_written_refuted); a file named just .md is not converted (C51_hidden_refuted). What it does instead is proved for every source: C51_printed_partial gives the effects (dump, reports of stray end tags, page) and the exception; C51_every_run that its hypotheses are met by every run; C51_page says what is printed last is exactly the page that the rules of iced_gopher give to the tree the source denotes (C74, C70); C51_setup pins the configuration; C51_lines that every content has one translation of line ends. The Markdown converter is a parameter. argparse, decoding and I/O errors are outside the model."
  },
  {
   "property": "C52",
   "status": "proved",
   "theorems": [
    "C52_depth",
    "C52_document",
    "C52_source",
    "C52_themes"
   ],
   "note": "C52_themes: per rule of the nine generated tables, for every content. C52_document: whole documents, any history of handler calls, stock rules and each theme; what handlers raise (feed_error) is C80. C52_depth (nesting that fits; DepthSpec: label_cost, shallow), C52_source (source text, exact)."
  },
  {
   "property": "C53",
   "status": "proved",
   "theorems": [
    "C53_image",
    "C53_link"
   ],
   "note": "For every link and image not placed inline, in text and gophermap output."
  },
  {
   "property": "C54",
   "status": "proved",
   "theorems": [
    "C54_feeding",
    "C54_rendering",
    "C54_toplevel",
    "C54_wide"
   ],
   "note": "C54_feeding: no handler raises iff the events are acceptable. C54_rendering: for acceptable events close succeeds iff every wrapped text has a column, and else raises ValueError. C54_wide: in particular when the page is wider than its deepest indentation. C54_toplevel: the condition on after_block links is needed (AttributeError)."
  },
  {
   "property": "C55",
   "status": "proved",
   "theorems": [
    "C55_spacing"
   ],
   "note": ""
  },
  {
   "property": "C56",
   "status": "partial",
   "theorems": [
    "C56_links_refuted",
    "C56_nothing_partial"
   ],
   "note": "An element other than a link mapped to NonRenderer contributes nothing, whatever the rule table and content. Refuted: links inside it are still numbered and listed."
  },
  {
   "property": "C57",
   "status": "proved",
   "theorems": [
    "C57_tag_attached"
   ],
   "note": ""
  },
  {
   "property": "C58",
   "status": "proved",
   "theorems": [
    "C58_max_lines"
   ],
   "note": "for every text, width and limit"
  },
  {
   "property": "C59",
   "status": "partial",
   "theorems": [
    "C59_nested_partial",
    "C59_repeated_effect_refuted"
   ],
   "note": "Proved for spans that do not repeat an effect (or one sharing its off code, or a colour) of a span around them and do not use normalise; refuted otherwise."
  },
  {
   "property": "C60",
   "status": "proved",
   "theorems": [
    "C60_events",
    "C60_markup",
    "C60_reading"
   ],
   "note": "C60_events: for every event history without close and every stock configuration, render_doc equals the compositional specification page (PageSpec.v), errors included. C60_markup: the same for well-formed markup trees. C60_reading: the tree read from markup is the tree it denotes. PageSpec does not mention arenas, boxes, rule tables, settings, renderer objects or fuel; it takes wrap (C22-C26) and parse_href (C27-C30) as given."
  },
  {
   "property": "C61",
   "status": "partial",
   "theorems": [
    "C61_failed_close",
    "C61_failed_pre_refuted",
    "C61_failed_tag_partial",
    "C61_reset_partial"
   ],
   "note": "Modelled on the crash-preserving API (Feed.v): the state a handler leaves behind when it raises is explicit. Failed tags other than pre are as if absent; a failed pre tag leaves the verbatim flag set (C61_failed_pre_refuted). After reset the parser is new unless the pre flag is set (finding of C15)."
  },
  {
   "property": "C62",
   "status": "partial",
   "theorems": [
    "C62_close_raises_partial",
    "C62_feed_returns",
    "C62_script_refuted"
   ],
   "note": "Over the exact html.parser tokenizer model (Tokenizer.v). Proved outside script/style; inside a script element a raised error can be followed by a quiet close (C62_script_refuted)."
  },
  {
   "property": "C63",
   "status": "proved",
   "theorems": [
    "C63_page",
    "C63_print",
    "C63_source",
    "C63_spelling"
   ],
   "note": "full statement for the `written` relation of SourceSpec (an inductive definition independent of the tokenizer); the tokenizer is modelled exactly"
  },
  {
   "property": "C64",
   "status": "proved",
   "theorems": [
    "C64_block"
   ],
   "note": "for every renderer instance of a block kind, every settings dictionary and content"
  },
  {
   "property": "C65",
   "status": "proved",
   "theorems": [
    "C65_heading",
    "C65_markdown"
   ],
   "note": "for every settings dictionary and content; the heading texts are stated without the model's helpers (DressSpec)"
  },
  {
   "property": "C66",
   "status": "proved",
   "theorems": [
    "C66_code_paragraph",
    "C66_item",
    "C66_paragraph",
    "C66_pre",
    "C66_quote"
   ],
   "note": "for every settings dictionary and content; wrapping itself is the subject of C24-C33 and C58"
  },
  {
   "property": "C67",
   "status": "proved",
   "theorems": [
    "C67_break",
    "C67_code",
    "C67_image",
    "C67_inline",
    "C67_link",
    "C67_listed_image",
    "C67_listed_link",
    "C67_menu_link",
    "C67_nothing"
   ],
   "note": "for every settings dictionary and element"
  },
  {
   "property": "C68",
   "status": "proved",
   "theorems": [
    "C68_template"
   ],
   "note": "for every template made of text and fields, without mixing numbered and unnumbered fields"
  },
  {
   "property": "C69",
   "status": "proved",
   "theorems": [
    "C69_tabs",
    "C69_white_space"
   ],
   "note": "for every text"
  },
  {
   "property": "C70",
   "status": "proved",
   "theorems": [
    "C70_exact",
    "C70_exact_markup",
    "C70_exact_page",
    "C70_markup",
    "C70_page",
    "C70_quiet",
    "C70_stock_exact",
    "C70_theme_exact",
    "C70_unique"
   ],
   "note": "C70_page, C70_unique, C70_markup: every event history and every pair of tables, all selectors included (their verdicts are those of C75). C70_exact, C70_exact_markup: exactly those pages, for tables whose settings have the right shape (ShapeSpec.shaped_tables); C70_exact_page asks it only of the settings that reach an element of the page, for the renderer it has (shaped_page); a selector that raises is the only other way to fail before the page. C70_stock_exact and C70_theme_exact discharge the hypotheses for the default tables and all nine code themes under any other options."
  },
  {
   "property": "C71",
   "status": "proved",
   "theorems": [
    "C71_layout",
    "C71_line",
    "C71_one_layout",
    "C71_pieces"
   ],
   "note": "for every text and configuration: wrap = Ok lines iff layout (LayoutSpec)"
  },
  {
   "property": "C72",
   "status": "proved",
   "theorems": [
    "C72_failure",
    "C72_one_meaning",
    "C72_references"
   ],
   "note": "An equivalence in both directions with a relation over the matches of the reference expression; the table of names is the library's."
  },
  {
   "property": "C73",
   "status": "proved",
   "theorems": [
    "C73_attribute",
    "C73_blanks",
    "C73_break_points",
    "C73_comment",
    "C73_condition",
    "C73_declared_name",
    "C73_end_tag",
    "C73_escapes",
    "C73_raw",
    "C73_section",
    "C73_sentence_end",
    "C73_start_tag"
   ],
   "note": "Regular expressions are given a semantics (all ways to match in order of preference); what is trusted is their transcription. Script and style are the only raw elements the library has."
  },
  {
   "property": "C74",
   "status": "proved",
   "theorems": [
    "C74_close",
    "C74_feed",
    "C74_one_reading",
    "C74_page",
    "C74_render",
    "C74_source"
   ],
   "note": "Existence and uniqueness of the reading for all texts; pages with the library's renderers (C60); with the caller's rule tables the calls are the same and C70 applies."
  },
  {
   "property": "C75",
   "status": "proved",
   "theorems": [
    "C75_attribute",
    "C75_css",
    "C75_nth",
    "C75_nth_bad",
    "C75_one",
    "C75_places",
    "C75_raises",
    "C75_settled",
    "C75_verdict"
   ],
   "note": "C75_verdict is an equivalence for every selector; C75_nth, C75_nth_bad and C75_attribute state the cases C06 and C07 exclude; C75_raises and C75_settled say which exception closing raises."
  },
  {
   "property": "C76",
   "status": "proved",
   "theorems": [
    "C76_one",
    "C76_stored",
    "C76_target"
   ],
   "note": "Equivalence between parse_href and the relation leads for every href, host and port. Bracketed addresses and NFKC checks use the abstract Unicode data (u_bracket_ok, u_nfkc_bad). That the href is the href or src attribute of the tag is in the document relation of C03/C65."
  },
  {
   "property": "C77",
   "status": "proved",
   "theorems": [
    "C77_defaults",
    "C77_one_table",
    "C77_options",
    "C77_rules",
    "C77_stock",
    "C77_texts"
   ],
   "note": "C77_rules (overlay of the caller's table on the stock table, order included), C77_one_table (the overlay is unique), C77_options, C77_defaults, C77_stock (texts of the stock rules) and C77_texts (every shipped rule: its text is a CSS spelling of its selectors; cssselect itself is not modelled)."
  },
  {
   "property": "C78",
   "status": "proved",
   "theorems": [
    "C78_document",
    "C78_history",
    "C78_silent",
    "C78_stray",
    "C78_text"
   ],
   "note": "C78_history (all histories, exceptions caught), C78_stray (when an end tag is reported), C78_silent, C78_text (a whole source text), C78_document (well closed documents)."
  },
  {
   "property": "C79",
   "status": "proved",
   "theorems": [
    "C79_block",
    "C79_interchange",
    "C79_interchange_doc",
    "C79_interchange_text",
    "C79_raises",
    "C79_render",
    "C79_subclass",
    "C79_subclass_pass"
   ],
   "note": "C79_interchange (every sequence of feed/close/reset, exceptions caught), C79_interchange_text, C79_interchange_doc; C79_subclass, C79_subclass_pass; C79_render and C79_block (what the method is given, element level); C79_raises (where its exception comes out). What a page with such classes looks like is C70_exact, whose tables may hold them. A method that reads the rest of the tree or global state is outside the model."
  },
  {
   "property": "C80",
   "status": "proved",
   "theorems": [
    "C80_exact",
    "C80_exact_markup",
    "C80_exact_page",
    "C80_source",
    "C80_source_page",
    "C80_source_raises",
    "C80_source_raises_page",
    "C80_stock"
   ],
   "note": "C80_exact (histories), C80_exact_markup, C80_source (outcome Ok, any source text), C80_source_raises (outcome Err, any source text), C80_stock. Settings of the right shape (shaped_tables, as in C70_exact) are assumed, in the _page theorems only of those that reach an element of the page; the two layouts that hang in the code come out as EFuel of justify, see C12."
  },
  {
   "property": "C81",
   "status": "proved",
   "theorems": [
    "C81_not_both",
    "C81_one",
    "C81_or",
    "C81_set",
    "C81_unset"
   ],
   "note": "C81_set and C81_unset are equivalences between the model's justifying functions and SetSpec; C81_one, C81_or, C81_not_both: one outcome. C23_endless and C23_outcome say when the layout does not end (EFuel of the model, whose budget is exact by C23_budget_exact)."
  },
  {
   "property": "C82",
   "status": "proved",
   "theorems": [
    "C82_colour",
    "C82_html",
    "C82_no_colour",
    "C82_not_both",
    "C82_one",
    "C82_or",
    "C82_span",
    "C82_text",
    "C82_trips"
   ],
   "note": "C82_span and C82_trips are equivalences for every settings dictionary; C82_colour, C82_no_colour, C82_html for single colours. A tuple with a tuple among its first three entries is left open (EUnsupported): its repr is not modelled."
  },
  {
   "property": "C83",
   "status": "proved",
   "theorems": [
    "C83_calls",
    "C83_exact",
    "C83_lasting",
    "C83_lasting_needed",
    "C83_one",
    "C83_stock",
    "C83_stock_calls",
    "C83_theme_calls"
   ],
   "note": "C83_calls, C83_one and C83_exact together are an equivalence for any tables that are shaped and lasting; C83_lasting, C83_stock, C83_stock_calls, C83_theme_calls give them for the tables of the library, the themes and tables that look back only. C83_lasting_needed: the condition is needed."
  },
  {
   "property": "C84",
   "status": "proved",
   "theorems": [
    "C84_aligned",
    "C84_alone",
    "C84_braces",
    "C84_exception",
    "C84_one",
    "C84_or",
    "C84_result",
    "C84_text",
    "C84_unknown",
    "C84_verbatim"
   ],
   "note": "every template string with strings, integers and None as arguments; attributes, !r/!a of strings and some presentations of integers are an outcome of their own (outside the model)"
  },
  {
   "property": "C85",
   "status": "proved",
   "theorems": [
    "C85_base",
    "C85_box",
    "C85_no_box",
    "C85_raises",
    "C85_returns",
    "C85_shown"
   ],
   "note": "every subclass whose methods are functions of their arguments"
  },
  {
   "property": "C86",
   "status": "proved",
   "theorems": [
    "C86_depth",
    "C86_exact",
    "C86_exact_page",
    "C86_no_room",
    "C86_no_room_page",
    "C86_only",
    "C86_only_page",
    "C86_room",
    "C86_room_page",
    "C86_source"
   ],
   "note": "C86_only (nothing else goes wrong), C86_no_room (where there are no columns it does, whatever the tables), C86_exact (tables without indents), C86_room. The _page theorems ask only of what reaches an element of the page that it be of the right shape and good (shaped_page, good_page); fit_case is a table that is so for every page though its rules do not suit each other. shaped_tables as in C70_exact; what makes tables good is good_tables in SafeSpec, a condition on templates, colours and which elements the link, image and heading classes are for. C86_depth (any bound on the columns each place takes; DepthSpec), C86_source (source text)."
  },
  {
   "property": "C87",
   "status": "proved",
   "theorems": [
    "C87_contains",
    "C87_delete",
    "C87_digit",
    "C87_endswith",
    "C87_equal",
    "C87_get",
    "C87_get_none",
    "C87_join",
    "C87_line_ends",
    "C87_lines",
    "C87_lower",
    "C87_lstrip",
    "C87_number",
    "C87_partition",
    "C87_rpartition",
    "C87_rstrip",
    "C87_set",
    "C87_split",
    "C87_startswith",
    "C87_strip",
    "C87_truth",
    "C87_update",
    "C87_upper",
    "C87_white",
    "C87_word",
    "C87_words"
   ],
   "note": "The operations of PyStr, Values and PyBase that both the model and the specifications of the other claims use, each characterised against StrSpec.v, which uses no model function: white space and line ends are listed code point by code point. Case change is characterised on ASCII text; above it the Unicode tables are a parameter of every theorem. Wrong edits to these operations used to slip through because specification and model shared them; now each has its own theorem."
  },
  {
   "property": "C88",
   "status": "proved",
   "theorems": [
    "C88_enough",
    "C88_least",
    "C88_shipped",
    "C88_source",
    "C88_wider"
   ],
   "note": "C88_wider, C88_enough, C88_least for any tables good for the page (shaped_page, good_page, flush_page as in C86); C88_shipped and C88_source for the shipped tables and themes. The least width is shown to exist (an explicit bound from the tables, then monotonicity), not computed."
  },
  {
   "property": "C89",
   "status": "partial",
   "theorems": [
    "C89_capitals_refuted",
    "C89_description_refuted",
    "C89_long_word_refuted",
    "C89_page",
    "C89_pieces",
    "C89_source",
    "C89_spread_refuted",
    "C89_steady",
    "C89_stock",
    "C89_tables",
    "C89_theme",
    "C89_theme_refuted",
    "C89_theme_source",
    "C89_unstyled"
   ],
   "note": "C89_page: any tables, under tidy_page (every element passes styling on, or has none inside and adds none); C89_steady, C89_tables: the same from the settings and from the tables; C89_unstyled, C89_stock: no control sequence at all; C89_source, C89_pieces: from the source text; C89_theme, C89_theme_source: the shipped themes, when nothing with a class is inside a heading, paragraph, item, term, definition, link or image. Partial because the claim for every table and document is false: long words broken inside a sequence, link descriptions cut before the closing sequence (also with a shipped theme), headings in capitals and spread headings (C89_*_refuted). The terminal is AnsiSpec.display. Callers' own classes are outside tidy_page."
  },
  {
   "property": "C90",
   "status": "proved",
   "theorems": [
    "C90_empty",
    "C90_failures",
    "C90_page",
    "C90_reading",
    "C90_render",
    "C90_whole",
    "C90_wider"
   ],
   "note": "C90_reading, C90_render: any pieces, any tables; C90_whole: one piece is the source text of C74; C90_empty: empty pieces; C90_page, C90_failures, C90_wider: the stock rules and the shipped themes. When pieces agree with the whole text is C19."
  },
  {
   "property": "C91",
   "status": "proved",
   "theorems": [
    "C91_always_some",
    "C91_at_most",
    "C91_exactly",
    "C91_more",
    "C91_nesting",
    "C91_no_page",
    "C91_same",
    "C91_shipped",
    "C91_text",
    "C91_text_deep",
    "C91_text_unclosed",
    "C91_unclosed"
   ],
   "note": "C91_nesting, C91_unclosed, C91_at_most: how deep a document is; C91_same, C91_no_page, C91_more: any tables; C91_exactly, C91_shipped: RecursionError exactly beyond the limit; C91_text, C91_text_deep, C91_text_unclosed: source text. The limit counts nested calls of one function (Walk.v)."
  },
  {
   "property": "C92",
   "status": "proved",
   "theorems": [
    "C92_any_name",
    "C92_anywhere",
    "C92_command",
    "C92_effects",
    "C92_exchange",
    "C92_help",
    "C92_negative",
    "C92_only",
    "C92_plain",
    "C92_spellings",
    "C92_told"
   ],
   "note": "C92_told: the model of argparse on the tool's parser gives an outcome iff the specification (ArgSpec.told) does, so there is exactly one. C92_only spells out when the tool starts; C92_command that help and refusals end it before a file is read and that the destination makes no difference; C92_effects that a run reads one of the arguments and then only prints; C92_negative which arguments are numbers; C92_plain, C92_exchange, C92_spellings, C92_anywhere, C92_any_name, C92_help particular uses. The texts of help and messages are not modelled."
  },
  {
   "property": "C93",
   "status": "proved",
   "theorems": [
    "C93_every",
    "C93_exceptions",
    "C93_fails",
    "C93_fits",
    "C93_no_file",
    "C93_prints",
    "C93_terminal",
    "C93_text",
    "C93_too_deep",
    "C93_within"
   ],
   "note": "C93_every: every run has one HTML and one reading; C93_prints and C93_fails: exactly when the page is printed and exactly which exception ends the run; C93_exceptions: the three that are possible; C93_fits: shallow documents are printed; C93_text: so is every text without markup. C93_within and C93_too_deep: the same under a limit on nested calls; C93_terminal: what the page leaves behind on a terminal. The decoding of the file and errors of the file system are not modelled."
  },
  {
   "property": "C94",
   "status": "proved",
   "theorems": [
    "C94_lines",
    "C94_menu",
    "C94_references",
    "C94_source",
    "C94_source_references"
   ],
   "note": "C94_menu and C94_source for gophermap pages, C94_lines for reading the page line by line, C94_references and C94_source_references for pages of text with the removal of trailing blanks. What the restrictions exclude is false: C46_title_tab_refuted, C46_title_break_refuted, C46_image_refuted, C46_margin_refuted."
  }
 ]
}