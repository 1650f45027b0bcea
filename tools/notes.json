{
 "C03": "per-key cascade proved whenever a rule names a renderer; refuted for elements that get the default renderer (their settings-only rules are dropped)",
 "C05": "the theorem covers attribute and nth-child selectors in the nesting as well",
 "C06": "proved for every k >= 1; refuted for k <= 0 (matches the wrong element or raises IndexError); C75_nth states exactly what happens for every argument",
 "C07": "proved for non-empty operands, attributes with values, CSS white space, class only with presence and ~=; each exclusion is refuted by a witness; C75_attribute states exactly what happens for every operator and value",
 "C08": " C08_counts: a selector's specificity counts the simple selectors written in it (ids; classes, attributes and pseudo-classes; names and the pseudo-element).",
 "C11": "proved for every end tag except </pre> while the pre flag is set; that case is refuted",
 "C14": "C38_page gives the shape of the page (contributions, then newline and the footer entries of `listed` links in document order). C14_numbers_partial: with links in the footer and images there or inline the numbers listed are exactly 1..n. C14_after_block_partial: a link for after_block is pending at its parent, in document order (what its parent prints is C47). Refuted in general: images for the footer are never listed when links are placed elsewhere, and an image after the block inside an inline link is dropped.",
 "C15": "reset() keeps the pre flag: proved when the last pre tag before reset was not a start tag, refuted otherwise",
 "C16": "Refuted: closing twice duplicates the page. Partial: closing again never fails and prints the same body once more (C16_close_again_partial); closing an empty document twice changes nothing.",
 "C18": "proved for documents without a pre inside a pre; refuted for nested pre",
 "C19": "refuted at cuts with white space on both sides, in a value with a closing bracket, in a very long numeric reference and in text directly in a numbered list; proved for every other cut of carefully written source text, and for every cut of text events outside those places",
 "C20": "Selectors are taken already parsed (cssselect is outside the model).",
 "C23": "that wrapping always returns is refuted for indents wider than the width (the loop never stops); C23_outcome decides for every text and every settings whether it returns lines, raises ValueError or never returns; the model's iteration budget is proved exact",
 "C24": "words and greedy filling proved for pieces between ASCII white space; refuted for Python's wider notion of a word (U+00A0)",
 "C25": "proved for escape-free text with ASCII white space, long-word breaking, drop_whitespace, indents narrower than the width; refuted when a line ends in a no-break space",
 "C26": "proved for every wrapped line whose raw length is at most the width (all escape-free text); refuted for styled text (gap removed) and for gaps that were already two spaces (added widths differ by more than one)",
 "C28": "proved for chunks, and for single-spaced words, that are not broken; refuted for hyphenated words and for long words that must be broken",
 "C31": "Proved for chains of nested blocks where only the innermost has padding and no bordered block is inside another border; refuted in general: padding, nested borders and adjacent blocks push text past the width.",
 "C32": "Exact text of a heading for every content, box and placement (C32_heading_partial); one line of its own when the content has no newline. The blank line before/after is refuted when the neighbour is inline text, and a <br> in the heading splits it.",
 "C33": "Label is 1 + number of items before, when the list has only li children; start/step respected when given by a renderer class. Refuted: whitespace text between items is counted, and start_index/step from the rule table are ignored.",
 "C34": "For every document, box and placement with the library's renderers.",
 "C35": "Code directly in pre unchanged, otherwise backticks or fences; every line of a pre (as str.splitlines sees lines) indented by 4 columns, in order. Refuted for code deeper inside a pre.",
 "C36": "Every line of the content of a blockquote (as str.splitlines sees lines) is marked; nested quotations of any depth give one marker per level.",
 "C37": "Outcome and every line compared between the two settings, for every history of calls.",
 "C38": "For every history without an intermediate close.",
 "C39": "The method resolution order is given as a list (Python computes it). Exact result proved (C39_inherit_exact_partial); the English claim holds when no two classes of the MRO carry equal non-empty dictionaries, in particular for all 26 built-in classes (C39_builtin), and is refuted otherwise (C39_equal_refuted). Isolation is proved on a heap model of the dictionaries (SettingsHeap). Equality of settings is specified on its own (Python ==), and C39_left says that what is left of a settings object exists and is unique.",
 "C40": "For names dict does not define; for the others the two syntaxes differ (C40_reserved_names_differ). C40_all_names covers every name, those dict defines included, with two stores.",
 "C42": "Proved for every combination of effects and colours except: a font raises NameError, palette entry 0 is ignored (both refuted by witnesses).",
 "C44": "Web URLs: proved in full. Relative and gopher hrefs: under a plain host and no port/userinfo oddities (C44_relative_partial, C44_gopher_partial). The default-port half is refuted: a gopher href without a port gives port None. Parameters after ';' are dropped (refuted). C76 gives the exact target of every href.",
 "C45": "Item type follows the extension of the last component when it has one (C45_extension); no extension gives a menu unless a dot occurs in a directory (refuted).",
 "C46": "Proved for links (a) whose title or text, target and host have no tab or line break: the entry is one line with exactly the four fields; tabs and breaks in gopher and relative targets are removed by urlparse. Refuted in general: a tab or break in the title, records following an image record (padded with blanks by the block renderer), and pages with a left margin.",
 "C47": "Proved for every text and limit unless the text is padded with blanks and the limit falls between the lengths with and without padding; there the ellipsis is added without anything being cut (refuted). Entry-level theorem for the library's limit of 10 and for classes with their own limit. C47_negative: a limit below zero leaves out that many characters at the end, and the ellipsis is always added.",
 "C48": "Refuted universally: two rule tables for extracted links that differ in settings only give the same result (or error) for every document and every option set. For links placed inline, refuted for every settings dictionary.",
 "C49": "C49_kept: for every event history without close, stock renderers and any options, the visible characters of all text fed since the last reset are in the output in order.",
 "C50": "Proved for every document of paragraphs, quotations and divisions at any depth (C50_columns_partial, C50_page_partial). Missing from the English claim: texts with escape characters (there only the visible width is bounded, C21), a paragraph that is one piece of code (C50_code_refuted) and white space before the first paragraph of a quotation (C50_quotation_refuted); there the claim is false.",
 "C51": "Refuted: the tool prints the page and never writes the destination (C51_not_written_refuted); a file named just .md is not converted (C51_hidden_refuted). What it does instead is proved for every source: C51_printed_partial gives the effects (dump, reports of stray end tags, page) and the exception; C51_every_run that its hypotheses are met by every run; C51_page says what is printed last is exactly the page that the rules of iced_gopher give to the tree the source denotes (C74, C70); C51_setup pins the configuration; C51_lines that every content has one translation of line ends. The Markdown converter is a parameter. argparse, decoding and I/O errors are outside the model.",
 "C52": "C52_themes: per rule of the nine generated tables, for every content. C52_document: whole documents, any history of handler calls, stock rules and each theme; what handlers raise (feed_error) is C80. C52_depth (nesting that fits; DepthSpec: label_cost, shallow), C52_source (source text, exact).",
 "C53": "For every link and image not placed inline, in text and gophermap output.",
 "C54": "C54_feeding: no handler raises iff the events are acceptable. C54_rendering: for acceptable events close succeeds iff every wrapped text has a column, and else raises ValueError. C54_wide: in particular when the page is wider than its deepest indentation. C54_toplevel: the condition on after_block links is needed (AttributeError).",
 "C56": "An element other than a link mapped to NonRenderer contributes nothing, whatever the rule table and content. Refuted: links inside it are still numbered and listed.",
 "C58": "for every text, width and limit",
 "C59": "Proved for spans that do not repeat an effect (or one sharing its off code, or a colour) of a span around them and do not use normalise; refuted otherwise.",
 "C60": "C60_events: for every event history without close and every stock configuration, render_doc equals the compositional specification page (PageSpec.v), errors included. C60_markup: the same for well-formed markup trees. C60_reading: the tree read from markup is the tree it denotes. PageSpec does not mention arenas, boxes, rule tables, settings, renderer objects or fuel; it takes wrap (C22-C26) and parse_href (C27-C30) as given.",
 "C61": "Modelled on the crash-preserving API (Feed.v): the state a handler leaves behind when it raises is explicit. Failed tags other than pre are as if absent; a failed pre tag leaves the verbatim flag set (C61_failed_pre_refuted). After reset the parser is new unless the pre flag is set (finding of C15).",
 "C62": "Over the exact html.parser tokenizer model (Tokenizer.v). Proved outside script/style; inside a script element a raised error can be followed by a quiet close (C62_script_refuted).",
 "C63": "full statement for the `written` relation of SourceSpec (an inductive definition independent of the tokenizer); the tokenizer is modelled exactly",
 "C64": "for every renderer instance of a block kind, every settings dictionary and content",
 "C65": "for every settings dictionary and content; the heading texts are stated without the model's helpers (DressSpec)",
 "C66": "for every settings dictionary and content; wrapping itself is the subject of C24-C33 and C58",
 "C67": "for every settings dictionary and element",
 "C68": "for every template made of text and fields, without mixing numbered and unnumbered fields",
 "C69": "for every text",
 "C70": "C70_page, C70_unique, C70_markup: every event history and every pair of tables, all selectors included (their verdicts are those of C75). C70_exact, C70_exact_markup: exactly those pages, for tables whose settings have the right shape (ShapeSpec.shaped_tables); C70_exact_page asks it only of the settings that reach an element of the page, for the renderer it has (shaped_page); a selector that raises is the only other way to fail before the page. C70_stock_exact and C70_theme_exact discharge the hypotheses for the default tables and all nine code themes under any other options.",
 "C71": "for every text and configuration: wrap = Ok lines iff layout (LayoutSpec)",
 "C72": "An equivalence in both directions with a relation over the matches of the reference expression; the table of names is the library's.",
 "C73": "Regular expressions are given a semantics (all ways to match in order of preference); what is trusted is their transcription. Script and style are the only raw elements the library has.",
 "C74": "Existence and uniqueness of the reading for all texts; pages with the library's renderers (C60); with the caller's rule tables the calls are the same and C70 applies.",
 "C75": "C75_verdict is an equivalence for every selector; C75_nth, C75_nth_bad and C75_attribute state the cases C06 and C07 exclude; C75_raises and C75_settled say which exception closing raises.",
 "C76": "Equivalence between parse_href and the relation leads for every href, host and port. Bracketed addresses and NFKC checks use the abstract Unicode data (u_bracket_ok, u_nfkc_bad). That the href is the href or src attribute of the tag is in the document relation of C03/C65.",
 "C77": "C77_rules (overlay of the caller's table on the stock table, order included), C77_one_table (the overlay is unique), C77_options, C77_defaults, C77_stock (texts of the stock rules) and C77_texts (every shipped rule: its text is a CSS spelling of its selectors; cssselect itself is not modelled).",
 "C78": "C78_history (all histories, exceptions caught), C78_stray (when an end tag is reported), C78_silent, C78_text (a whole source text), C78_document (well closed documents).",
 "C79": "C79_interchange (every sequence of feed/close/reset, exceptions caught), C79_interchange_text, C79_interchange_doc; C79_subclass, C79_subclass_pass; C79_render and C79_block (what the method is given, element level); C79_raises (where its exception comes out). What a page with such classes looks like is C70_exact, whose tables may hold them. A method that reads the rest of the tree or global state is outside the model.",
 "C80": "C80_exact (histories), C80_exact_markup, C80_source (outcome Ok, any source text), C80_source_raises (outcome Err, any source text), C80_stock. Settings of the right shape (shaped_tables, as in C70_exact) are assumed, in the _page theorems only of those that reach an element of the page; the two layouts that hang in the code come out as EFuel of justify, see C12.",
 "C81": "C81_set and C81_unset are equivalences between the model's justifying functions and SetSpec; C81_one, C81_or, C81_not_both: one outcome. C23_endless and C23_outcome say when the layout does not end (EFuel of the model, whose budget is exact by C23_budget_exact).",
 "C82": "C82_span and C82_trips are equivalences for every settings dictionary; C82_colour, C82_no_colour, C82_html for single colours. A tuple with a tuple among its first three entries is left open (EUnsupported): its repr is not modelled.",
 "C83": "C83_calls, C83_one and C83_exact together are an equivalence for any tables that are shaped and lasting; C83_lasting, C83_stock, C83_stock_calls, C83_theme_calls give them for the tables of the library, the themes and tables that look back only. C83_lasting_needed: the condition is needed.",
 "C84": "every template string with strings, integers and None as arguments; attributes, !r/!a of strings and some presentations of integers are an outcome of their own (outside the model)",
 "C85": "every subclass whose methods are functions of their arguments",
 "C86": "C86_only (nothing else goes wrong), C86_no_room (where there are no columns it does, whatever the tables), C86_exact (tables without indents), C86_room. The _page theorems ask only of what reaches an element of the page that it be of the right shape and good (shaped_page, good_page); fit_case is a table that is so for every page though its rules do not suit each other. shaped_tables as in C70_exact; what makes tables good is good_tables in SafeSpec, a condition on templates, colours and which elements the link, image and heading classes are for. C86_depth (any bound on the columns each place takes; DepthSpec), C86_source (source text).",
 "C87": "The operations of PyStr, Values and PyBase that both the model and the specifications of the other claims use, each characterised against StrSpec.v, which uses no model function: white space and line ends are listed code point by code point. Case change is characterised on ASCII text; above it the Unicode tables are a parameter of every theorem. Wrong edits to these operations used to slip through because specification and model shared them; now each has its own theorem.",
 "C88": "C88_wider, C88_enough, C88_least for any tables good for the page (shaped_page, good_page, flush_page as in C86); C88_shipped and C88_source for the shipped tables and themes. The least width is shown to exist (an explicit bound from the tables, then monotonicity), not computed.",
 "C89": "C89_page: any tables, under tidy_page (every element passes styling on, or has none inside and adds none); C89_steady, C89_tables: the same from the settings and from the tables; C89_unstyled, C89_stock: no control sequence at all; C89_source, C89_pieces: from the source text; C89_theme, C89_theme_source: the shipped themes, when nothing with a class is inside a heading, paragraph, item, term, definition, link or image. Partial because the claim for every table and document is false: long words broken inside a sequence, link descriptions cut before the closing sequence (also with a shipped theme), headings in capitals and spread headings (C89_*_refuted). The terminal is AnsiSpec.display. Callers' own classes are outside tidy_page.",
 "C90": "C90_reading, C90_render: any pieces, any tables; C90_whole: one piece is the source text of C74; C90_empty: empty pieces; C90_page, C90_failures, C90_wider: the stock rules and the shipped themes. When pieces agree with the whole text is C19.",
 "C91": "C91_nesting, C91_unclosed, C91_at_most: how deep a document is; C91_same, C91_no_page, C91_more: any tables; C91_exactly, C91_shipped: RecursionError exactly beyond the limit; C91_text, C91_text_deep, C91_text_unclosed: source text. The limit counts nested calls of one function (Walk.v).",
 "C92": "C92_told: the model of argparse on the tool's parser gives an outcome iff the specification (ArgSpec.told) does, so there is exactly one. C92_only spells out when the tool starts; C92_command that help and refusals end it before a file is read and that the destination makes no difference; C92_effects that a run reads one of the arguments and then only prints; C92_negative which arguments are numbers; C92_plain, C92_exchange, C92_spellings, C92_anywhere, C92_any_name, C92_help particular uses. The texts of help and messages are not modelled.",
 "C93": "C93_every: every run has one HTML and one reading; C93_prints and C93_fails: exactly when the page is printed and exactly which exception ends the run; C93_exceptions: the three that are possible; C93_fits: shallow documents are printed; C93_text: so is every text without markup. C93_within and C93_too_deep: the same under a limit on nested calls; C93_terminal: what the page leaves behind on a terminal. The decoding of the file and errors of the file system are not modelled.",
 "C94": "C94_menu and C94_source for gophermap pages, C94_lines for reading the page line by line, C94_references and C94_source_references for pages of text with the removal of trailing blanks. What the restrictions exclude is false: C46_title_tab_refuted, C46_title_break_refuted, C46_image_refuted, C46_margin_refuted."
}